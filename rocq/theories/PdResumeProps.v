(** C281, C282: the inline view and the output of an external command (Suspend, the command, Resume). *)
From Verif Require Import Prelude Utf8 TermEmu RenderEmu InlineModel InlineSpec TruncProofs TruncItems InlineEmu InlineFrames InlineProps PdModel.

Section Redraw.
Variable cw : Z -> Z.
Variable zw : Z -> bool.
Variables W H : Z.
Notation rdw := (rdw zw).
Notation show_ok := (show_ok cw rdw).
Notation paint := (paint cw).
Notation fitted := (fitted rdw).

(** Drawing everything anew, with the cursor anywhere on a screen of any texts [txt]. *)
Lemma redraw t r v (txt : Z -> list Z) :
  1 <= W -> tw t = W -> th t = H -> pst t = Ground -> pend t = false -> 0 <= cx t < W -> 0 <= cy t < H ->
  (forall y, 0 <= y < H -> Z.of_nat (length (paint (txt y))) <= W /\ forall x, 0 <= x < W -> cell2 (grid t x y) = nth (Z.to_nat x) (paint (txt y)) blankc) ->
  let ls := keep (ih r) v in
  v <> [] -> Forall (Forall show_ok) v -> Z.of_nat (length ls) <= H -> Forall (fun l => cols rdw (visible (fitted (iw r) l)) < W) ls ->
  view_bytes v <> [] \/ nrend r = 0%nat ->
  let t' := emu cw t (snd (irender zw (irepaint r) (view_bytes v))) in
  let first := Z.max 0 (cy t - Z.of_nat (pred (nrend r))) in
  exists top, 0 <= top <= first /\
    (forall j x, (j < length ls)%nat -> 0 <= x < W -> top + Z.of_nat j < H /\ cell2 (grid t' x (top + Z.of_nat j)) = nth (Z.to_nat x) (paint (visible (fitted (iw r) (nth j ls [])))) blankc) /\
    (forall x y, 0 <= x < W -> top + Z.of_nat (length ls) <= y < H -> cell2 (grid t' x y) = if (length ls <? nrend r)%nat then blankc else if y + (first - top) <? H then cell2 (grid t x (y + (first - top))) else blankc) /\
    (forall x y, 0 <= y < top -> grid t' x y = grid t x (y + (first - top))).
Proof using.
  intros HW Htw Hth Hp Hpe Hx Hy Ht ls Hne Hok HlsH Hfit Hempty t' first.
  assert (Hlsok : Forall (Forall show_ok) ls) by (apply (keep_ok cw zw W (grid t)); exact Hok).
  assert (Hlsne : ls <> []) by (apply (keep_ne cw zw (grid t)); exact Hne).
  assert (HF : 0 <= first <= cy t) by (unfold first; lia).
  set (R := fun j : nat => if first + Z.of_nat j <? H then paint (txt (first + Z.of_nat j)) else []).
  set (up := if (1 <? nrend r)%nat then cursor_up (Z.of_nat (nrend r) - 1) else []).
  assert (Hup : feeds cw t up = set_cur t (cx t) first (if (1 <? nrend r)%nat then false else pend t) \/ (feeds cw t up = t /\ first = cy t)).
  { unfold up, first. destruct (1 <? nrend r)%nat eqn:E.
    - left. rewrite (feeds_up cw zw) by (auto; lia). f_equal. lia.
    - right. split; [reflexivity|]. apply Nat.ltb_ge in E. lia. }
  set (t0 := feeds cw t up) in *.
  assert (F0 : tw t0 = W /\ th t0 = H /\ pst t0 = Ground /\ pend t0 = false /\ cx t0 = cx t /\ cy t0 = first /\ grid t0 = grid t).
  { destruct Hup as [-> |(-> & ->)]; cbn [set_cur tw th pst pend cx cy grid]; destruct (1 <? nrend r)%nat; auto 10. }
  destruct F0 as (A1 & A2 & A3 & A4 & A5 & A6 & A7).
  assert (Hs0 : scr W H (grid t) first t0 first R (cx t) 0).
  { constructor; auto; try lia.
    - intros j Hj. unfold R. replace (first + Z.of_nat j <? H) with true by lia. rewrite A7. destruct (Ht (first + Z.of_nat j)) as (_ & Q); [lia|]. exact Q.
    - intros j Hj. unfold R. replace (first + Z.of_nat j <? H) with false by lia. reflexivity.
    - intros j. unfold R. destruct (first + Z.of_nat j <? H) eqn:E; (split; [|first [apply wkinds_paint|apply wkinds_nil]]); [destruct (Ht (first + Z.of_nat j)) as (Q & _); [lia|exact Q]|cbn; lia].
    - intros x y Hy'. rewrite A7. f_equal. lia. }
  assert (Hclip : clip (ih r) (split_nl (view_bytes v)) = map line_bytes ls).
  { rewrite (split_view cw zw W (grid t) H) by auto. apply clip_keep. }
  assert (Et : t' = emu cw t (up ++ [13] ++ out_lines zw (iw r) [] 0 (map line_bytes ls) ++ (if (length ls <? nrend r)%nat then erase_below else []) ++ [13])).
  { unfold t', irender, irepaint. cbn [last_view nrend iw ih last_lines]. rewrite Hclip, map_length.
    replace (list_eqb (view_bytes v) [] && (0 <? Z.of_nat (nrend r))) with false; [reflexivity|]. symmetry. apply andb_false_iff.
    destruct Hempty as [Hv| ->]; [left|right; reflexivity]. destruct (list_eqb (view_bytes v) []) eqn:E; [|reflexivity]. apply list_eqb_eq in E. congruence. }
  assert (Eup : forall b, emu cw t (up ++ [13] ++ b) = emu cw (set_cur t0 0 (cy t0) false) b).
  { intros b. rewrite (emu_low cw zw).
    - fold t0. change [13] with (enc [13]) at 1. rewrite emu_enc by (repeat constructor; unfold scalar; lia). rewrite feeds_cr by auto. reflexivity.
    - unfold up, cursor_up. destruct (1 <? nrend r)%nat; [|constructor].
      destruct (_ <=? 0) eqn:E; [constructor|]. do 2 (constructor; [lia|]). apply Forall_app. split; [|repeat constructor; lia].
      destruct (dec_spec (Z.of_nat (nrend r) - 1) ltac:(lia)) as (_ & Hd & _). rewrite Forall_forall. intros z Hz.
      rewrite forallb_forall in Hd. specialize (Hd z Hz). unfold is_digit in Hd. lia. }
  rewrite Eup in Et. apply (scr_cr cw zw W H HW) in Hs0.
  destruct (loop_ok cw zw W H HW (grid t) first (iw r) [] ls 0 (set_cur t0 0 (cy t0) false) first R
       ((if (length ls <? nrend r)%nat then erase_below else []) ++ [13]) Hs0 Hlsne ltac:(cbn; lia) Hlsok Hfit)
      as (t1 & top & R1 & x1 & He & Hs1 & Ho & Hr & Hx1).
  { intros j l _ Q. destruct j; discriminate. }
  rewrite He in Et. clear He. cbn [Nat.add] in *.
  assert (L1 : (0 < length ls)%nat) by (destruct ls; [congruence|cbn; lia]).
  assert (Fin : exists R2, scr W H (grid t) first t' top R2 0 (length ls - 1) /\
     forall j, R2 j = if (j <? length ls)%nat then paint (visible (fitted (iw r) (nth j ls []))) else if (length ls <? nrend r)%nat then [] else R j).
  { destruct (length ls <? nrend r)%nat eqn:Es.
    - exists (fun j => if (j <=? length ls - 1)%nat then R1 j else []). split.
      + rewrite Et. rewrite (emu_low cw zw) by (repeat constructor; lia).
        assert (S2 : scr W H (grid t) first (feeds cw t1 erase_below) top (fun j => if (j <=? length ls - 1)%nat then R1 j else []) x1 (length ls - 1)).
        { apply (scr_ed cw zw W H); auto; try lia. destruct Hx1 as [-> |Q]; [left; lia|]. destruct (length ls - 1)%nat; discriminate. }
        change [13] with (enc [13]). rewrite <- (app_nil_r (enc [13])). rewrite emu_enc by (repeat constructor; unfold scalar; lia). rewrite emu_nil.
        rewrite feeds_cr by (destruct S2; auto). eapply (scr_cr cw zw W H HW); eauto.
      + intros j. destruct (Nat.leb_spec j (length ls - 1)); destruct (Nat.ltb_spec j (length ls)); try lia; [|reflexivity]. apply Hr. lia.
    - exists R1. split.
      + rewrite Et. cbn [app]. change [13] with (enc [13]). rewrite <- (app_nil_r (enc [13])). rewrite emu_enc by (repeat constructor; unfold scalar; lia). rewrite emu_nil.
        rewrite feeds_cr by (destruct Hs1; auto). eapply (scr_cr cw zw W H HW); eauto.
      + intros j. destruct (Nat.ltb_spec j (length ls)); [apply Hr; lia|apply Ho; lia]. }
  destruct Fin as (R2 & [B1 B2 B3 B4 B5 B6 B7 B8 B9 B10 B11 B12 B13] & HR).
  exists top. split; [lia|]. split; [|split].
  - intros j x Hj Hx'. assert (top + Z.of_nat j < H) by lia. split; [lia|]. rewrite (B10 j) by lia. rewrite HR. replace (j <? length ls)%nat with true by lia. reflexivity.
  - intros x y Hx' Hy'. replace y with (top + Z.of_nat (Z.to_nat (y - top))) by lia. rewrite (B10 (Z.to_nat (y - top))) by lia. rewrite HR.
    replace (Z.to_nat (y - top) <? length ls)%nat with false by lia. destruct (length ls <? nrend r)%nat; [destruct (Z.to_nat x); reflexivity|].
    unfold R. replace (top + Z.of_nat (Z.to_nat (y - top)) + (first - top)) with (first + Z.of_nat (Z.to_nat (y - top))) by lia.
    destruct (first + Z.of_nat (Z.to_nat (y - top)) <? H) eqn:E; [|destruct (Z.to_nat x); reflexivity].
    symmetry. destruct (Ht (first + Z.of_nat (Z.to_nat (y - top)))) as (_ & Q); [lia|]. apply Q. lia.
  - exact B13.
Qed.
End Redraw.

(** * C281 *)
(** A suspended inline program on a [W] x [H] terminal.  The external command has left any text [txt y] on each row
    and the cursor anywhere.  After Resume consecutive rows from [top] on show the lines of the view of the current model; rows
    above are those that were above row [first], scrolled; rows below are as they were, or blank if the view has become shorter. *)
Theorem C281_resume_redraws : forall cw zw W H (Mdl : Type) (lines : Mdl -> list (list item)) p r t (txt : Z -> list Z),
  susp Mdl p = true -> rend Mdl p = Some r ->
  1 <= W -> tw t = W -> th t = H -> pst t = Ground -> pend t = false -> 0 <= cx t < W -> 0 <= cy t < H ->
  (forall y, 0 <= y < H -> Z.of_nat (length (paint cw (txt y))) <= W /\ forall x, 0 <= x < W -> cell2 (grid t x y) = nth (Z.to_nat x) (paint cw (txt y)) blankc) ->
  let v := lines (mdl Mdl p) in let ls := keep (ih r) v in
  v <> [] -> Forall (Forall (show_ok cw (rdw zw))) v -> Z.of_nat (length ls) <= H -> Forall (fun l => cols (rdw zw) (visible (fitted (rdw zw) (iw r) l)) < W) ls ->
  view_bytes v <> [] \/ nrend r = 0%nat ->
  let t' := emu cw t (snd (resume zw Mdl (fun m => view_bytes (lines m)) false p)) in
  let first := Z.max 0 (cy t - Z.of_nat (pred (nrend r))) in
  exists top, 0 <= top <= first /\
    (forall j x, (j < length ls)%nat -> 0 <= x < W ->
       top + Z.of_nat j < H /\ cell2 (grid t' x (top + Z.of_nat j)) = nth (Z.to_nat x) (paint cw (visible (fitted (rdw zw) (iw r) (nth j ls [])))) blankc) /\
    (forall x y, 0 <= x < W -> top + Z.of_nat (length ls) <= y < H ->
       cell2 (grid t' x y) = if (length ls <? nrend r)%nat then blankc else if y + (first - top) <? H then cell2 (grid t x (y + (first - top))) else blankc) /\
    (forall x y, 0 <= y < top -> grid t' x y = grid t x (y + (first - top))).
Proof.
  intros cw zw W H Mdl lines p r t txt Su Er HW Htw Hth Hp Hpe Hx Hy Ht v ls Hne Hok HlsH Hfit Hempty t' first.
  assert (E : t' = emu cw t (snd (irender zw (irepaint r) (view_bytes v)))).
  { unfold t', resume. rewrite Su, Er. unfold render_view. cbn [rend mdl option_map]. fold v. destruct (irender zw (irepaint r) (view_bytes v)). reflexivity. }
  rewrite E. exact (redraw cw zw W H t r v txt HW Htw Hth Hp Hpe Hx Hy Ht Hne Hok HlsH Hfit Hempty).
Qed.
(** The program is as before, no longer suspended. *)
Theorem C281_resumed : forall zw (Mdl : Type) (view : Mdl -> list Z) alt p, susp Mdl p = true ->
  let p' := fst (resume zw Mdl view alt p) in mdl Mdl p' = mdl Mdl p /\ susp Mdl p' = false.
Proof. intros zw Mdl view [|] p Su; cbv zeta; unfold resume; rewrite Su; unfold render_view; cbn [rend mdl]; [split; reflexivity|]. destruct (irender _ _ _). split; reflexivity. Qed.

(** * C282 *)
(** With a view of one line nothing above the cursor is lost: the output of the command stays, scrolled if need be. *)
Theorem C282_one_line_partial : forall cw zw W H (Mdl : Type) (lines : Mdl -> list (list item)) p r t (txt : Z -> list Z),
  susp Mdl p = true -> rend Mdl p = Some r -> (nrend r <= 1)%nat ->
  1 <= W -> tw t = W -> th t = H -> pst t = Ground -> pend t = false -> 0 <= cx t < W -> 0 <= cy t < H ->
  (forall y, 0 <= y < H -> Z.of_nat (length (paint cw (txt y))) <= W /\ forall x, 0 <= x < W -> cell2 (grid t x y) = nth (Z.to_nat x) (paint cw (txt y)) blankc) ->
  let v := lines (mdl Mdl p) in let ls := keep (ih r) v in
  v <> [] -> Forall (Forall (show_ok cw (rdw zw))) v -> Z.of_nat (length ls) <= H -> Forall (fun l => cols (rdw zw) (visible (fitted (rdw zw) (iw r) l)) < W) ls ->
  view_bytes v <> [] ->
  let t' := emu cw t (snd (resume zw Mdl (fun m => view_bytes (lines m)) false p)) in
  exists top, 0 <= top <= cy t /\ forall x y, 0 <= y < top -> grid t' x y = grid t x (y + (cy t - top)).
Proof.
  intros cw zw W H Mdl lines p r t txt Su Er N1 HW Htw Hth Hp Hpe Hx Hy Ht v ls Hne Hok HlsH Hfit Hempty t'.
  destruct (C281_resume_redraws cw zw W H Mdl lines p r t txt Su Er HW Htw Hth Hp Hpe Hx Hy Ht Hne Hok HlsH Hfit (or_introl Hempty)) as (top & T & _ & _ & A).
  replace (Z.max 0 (cy t - Z.of_nat (pred (nrend r)))) with (cy t) in * by lia. exists top. split; [exact T|exact A].
Qed.

(** A view of two lines, a command that prints "out" and a line break: "out" was on the screen and is on no row after Resume. *)
Definition two_lines : unit -> list (list item) := fun _ => [[Ch 97]; [Ch 98]].
Definition one_col : Z -> Z := fun _ => 1.
Definition none : Z -> bool := fun _ => false.
Definition p1 := fst (do_events none unit unit (fun m _ => m) (fun m => view_bytes (two_lines m)) (fun _ => None) false (fst (begin none unit (fun m => view_bytes (two_lines m)) false tt)) [Suspend]).
Definition scr1 := emu one_col (blank_term 10 5 false) (snd (begin none unit (fun m => view_bytes (two_lines m)) false tt)).
Definition scr2 := emu one_col scr1 [111; 117; 116; 13; 10].
Definition scr3 := emu one_col scr2 (snd (resume none unit (fun m => view_bytes (two_lines m)) false p1)).
Theorem C282_output_erased_refuted :
  map (fun x => tch (grid scr2 x 1)) [0; 1; 2] = [111; 117; 116] /\
  forall y, 0 <= y < 5 -> map (fun x => tch (grid scr3 x y)) [0; 1; 2] <> [111; 117; 116].
Proof.
  split; [vm_compute; reflexivity|]. intros y Hy. assert (E : y = 0 \/ y = 1 \/ y = 2 \/ y = 3 \/ y = 4) by lia.
  destruct E as [-> |[-> |[-> |[-> | ->]]]]; vm_compute; discriminate.
Qed.
(** The same screens meet the hypotheses of C281. *)
Example C281_case : susp unit p1 = true /\ (exists r, rend unit p1 = Some r /\ nrend r = 2%nat) /\ pst scr2 = Ground /\ pend scr2 = false /\ cx scr2 = 0 /\ cy scr2 = 2 /\
  map (fun x => tch (grid scr3 x 1)) [0; 1] = [97; 32] /\ map (fun x => tch (grid scr3 x 2)) [0; 1] = [98; 32].
Proof. split; [reflexivity|]. split; [eexists; split; reflexivity|]. vm_compute. repeat split. Qed.

Print Assumptions C281_resume_redraws. Print Assumptions C281_resumed. Print Assumptions C282_one_line_partial. Print Assumptions C282_output_erased_refuted.
