From Verif Require Import Prelude CtModel.
From Verif Require TbModel MdModel VpModel PgModel SyModel.
From Coq Require String Ascii.

(** The calls that are not calls of Theme, in order. *)
Definition untheme {O} (cs : list (call O)) : list O := flat_map (fun c => match c with Theme _ => [] | Do o => [o] end) cs.
(** Two histories that differ at most in the themes they set and when. *)
Definition same_but_themes {O} (h1 h2 : list (call O)) : Prop := untheme h1 = untheme h2.

Section Erase.
Context {A O : Type} (step : themed A -> call O -> themed A) (plain_step : A -> O -> A).
Hypothesis Theme_only : forall x t, body (step x (Theme t)) = body x.
Hypothesis Do_body : forall x o, body (step x (Do o)) = plain_step (body x) o.
Lemma erase cs : forall x, body (run step cs x) = fold_left plain_step (untheme cs) (body x).
Proof using Theme_only Do_body.
  induction cs as [|c cs IH]; intros x; [reflexivity|].
  cbn [run fold_left]. fold (run step cs (step x c)). rewrite IH. destruct c as [t|o].
  - rewrite Theme_only. reflexivity.
  - rewrite Do_body. reflexivity.
Qed.
End Erase.

(** C346: whatever themes are set along the way, a component is what it would have been without. *)
Theorem C346_table fmt sorter (cs : list (call TbModel.top)) cols t :
  let x := run (table_step fmt sorter) cs (Themed (TbModel.new_table cols) t) in
  body x = TbModel.tsteps fmt sorter (untheme cs) (TbModel.new_table cols) /\
  table_view fmt x = TbModel.view fmt (TbModel.tsteps fmt sorter (untheme cs) (TbModel.new_table cols)).
Proof.
  cbv zeta. assert (E1 : body (run (table_step fmt sorter) cs (Themed (TbModel.new_table cols) t)) = TbModel.tsteps fmt sorter (untheme cs) (TbModel.new_table cols)).
  { unfold TbModel.tsteps. apply (erase (table_step fmt sorter) (TbModel.tstep fmt sorter)); reflexivity. }
  split; [exact E1|]. unfold table_view. rewrite E1. reflexivity.
Qed.
Theorem C346_modal fold_eq (cs : list (call MdModel.mop)) ttl text t :
  let x := run (modal_step fold_eq) cs (Themed (MdModel.new_modal ttl text) t) in
  let m := MdModel.msteps fold_eq (untheme cs) (MdModel.new_modal ttl text) in
  body x = m /\ modal_view x = MdModel.view m /\
  (forall g, body (fst (modal_update fold_eq x g)) = fst (MdModel.update fold_eq m g) /\ snd (modal_update fold_eq x g) = snd (MdModel.update fold_eq m g)).
Proof.
  cbv zeta. assert (E1 : body (run (modal_step fold_eq) cs (Themed (MdModel.new_modal ttl text) t)) = MdModel.msteps fold_eq (untheme cs) (MdModel.new_modal ttl text)).
  { unfold MdModel.msteps. apply (erase (modal_step fold_eq) (MdModel.mstep fold_eq)); reflexivity. }
  split; [exact E1|]. split; [unfold modal_view; rewrite E1; reflexivity|].
  intros g. unfold modal_update. rewrite E1. destruct (MdModel.update fold_eq _ g) as [m' a]. split; reflexivity.
Qed.
Theorem C346_viewport wd (cs : list (call VpModel.vop)) w h t :
  let x := run viewport_step cs (Themed (VpModel.new_view w h) t) in
  let v := VpModel.vsteps (untheme cs) (VpModel.new_view w h) in
  body x = v /\ viewport_view wd x = VpModel.view_text wd v.
Proof.
  cbv zeta. assert (E1 : body (run viewport_step cs (Themed (VpModel.new_view w h) t)) = VpModel.vsteps (untheme cs) (VpModel.new_view w h)).
  { unfold VpModel.vsteps. apply (erase viewport_step VpModel.vstep); reflexivity. }
  split; [exact E1|]. unfold viewport_view. rewrite E1. reflexivity.
Qed.
Theorem C346_bar (cs : list (call PgModel.bop)) w p t :
  let x := run bar_step cs (Themed (PgModel.new_bar_pct w p) t) in
  let b := PgModel.bsteps (untheme cs) (PgModel.new_bar_pct w p) in
  body x = b /\ bar_view x = PgModel.render_bar b.
Proof.
  cbv zeta. assert (E1 : body (run bar_step cs (Themed (PgModel.new_bar_pct w p) t)) = PgModel.bsteps (untheme cs) (PgModel.new_bar_pct w p)).
  { unfold PgModel.bsteps. apply (erase bar_step PgModel.bstep); reflexivity. }
  split; [exact E1|]. unfold bar_view. rewrite E1. reflexivity.
Qed.
Definition spinner_call (s : PgModel.spinner) (o : PgModel.smsg + list Z) : PgModel.spinner :=
  match o with inl m => fst (PgModel.supdate s m) | inr l => PgModel.with_slabel s l end.
Theorem C346_spinner (cs : list (call (PgModel.smsg + list Z))) name t :
  let x := run spinner_step cs (Themed (PgModel.spinner_named name) t) in
  let s := fold_left spinner_call (untheme cs) (PgModel.spinner_named name) in
  body x = s /\ spinner_view x = PgModel.sview s.
Proof.
  cbv zeta. assert (E1 : body (run spinner_step cs (Themed (PgModel.spinner_named name) t)) = fold_left spinner_call (untheme cs) (PgModel.spinner_named name)).
  { apply (erase spinner_step spinner_call); reflexivity. }
  split; [exact E1|]. unfold spinner_view. rewrite E1. reflexivity.
Qed.

(** C347: a component shows its theme if there are two histories, differing in nothing but themes, whose views differ. *)
Definition shows_its_theme {A O V} (step : themed A -> call O -> themed A) (start : A) (view : themed A -> V) : Prop :=
  exists h1 h2, same_but_themes h1 h2 /\ view (run step h1 (Themed start None)) <> view (run step h2 (Themed start None)).
Theorem C347_refuted :
  (forall fmt sorter cols, ~ shows_its_theme (table_step fmt sorter) (TbModel.new_table cols) (table_view fmt)) /\
  (forall fold_eq ttl text, ~ shows_its_theme (modal_step fold_eq) (MdModel.new_modal ttl text) modal_view) /\
  (forall wd w h, ~ shows_its_theme viewport_step (VpModel.new_view w h) (viewport_view wd)) /\
  (forall w p, ~ shows_its_theme bar_step (PgModel.new_bar_pct w p) bar_view) /\
  (forall name, ~ shows_its_theme spinner_step (PgModel.spinner_named name) spinner_view).
Proof.
  repeat split; intros; intros (h1 & h2 & Hs & Hd); apply Hd; unfold same_but_themes in Hs.
  - destruct (C346_table fmt sorter h1 cols None) as [_ ->]. destruct (C346_table fmt sorter h2 cols None) as [_ ->]. rewrite Hs. reflexivity.
  - destruct (C346_modal fold_eq h1 ttl text None) as (_ & -> & _). destruct (C346_modal fold_eq h2 ttl text None) as (_ & -> & _). rewrite Hs. reflexivity.
  - destruct (C346_viewport wd h1 w h None) as [_ ->]. destruct (C346_viewport wd h2 w h None) as [_ ->]. rewrite Hs. reflexivity.
  - destruct (C346_bar h1 w p None) as [_ ->]. destruct (C346_bar h2 w p None) as [_ ->]. rewrite Hs. reflexivity.
  - destruct (C346_spinner h1 name None) as [_ ->]. destruct (C346_spinner h2 name None) as [_ ->]. rewrite Hs. reflexivity.
Qed.

Example C346_ex : bar_view (run bar_step [Theme (Some SyModel.dark_theme); Do (PgModel.BInc 25); Theme None; Do (PgModel.BShow true); Theme (Some SyModel.light_theme)] (Themed (PgModel.new_bar_pct 4 25) None))
  = Some [9608; 9608; 9617; 9617; 32; 48; 53; 48; 37].
Proof. vm_compute. reflexivity. Qed.
Example C347_ex : same_but_themes (O := PgModel.bop) [Theme (Some SyModel.dark_theme); Do (PgModel.BInc 25)] [Do (PgModel.BInc 25); Theme (Some SyModel.light_theme)] /\ SyModel.dark_theme <> SyModel.light_theme.
Proof. split; [reflexivity|]. intros H. apply (f_equal SyModel.tname) in H. vm_compute in H. discriminate H. Qed.

Print Assumptions C346_table. Print Assumptions C346_modal. Print Assumptions C346_viewport. Print Assumptions C346_bar.
Print Assumptions C346_spinner. Print Assumptions C347_refuted.
