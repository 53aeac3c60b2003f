(** Lemmas for RtProps. *)
From Verif Require Import RtModel.
Local Open Scope list_scope.
Local Open Scope Z_scope.

Ltac lits := repeat match goal with |- context [B ?s] => let v := eval vm_compute in (B s) in change (B s) with v end.
Ltac litsin H := repeat match type of H with context [B ?s] => let v := eval vm_compute in (B s) in change (B s) with v in H end.

Lemma cut_skip m x : forall y, cut m (length x) (x ++ y) = cut m 0 y.
Proof. induction x as [|c x IH]; intros y; [reflexivity|]. cbn [length app cut]. apply IH. Qed.
Lemma cut_id m x : m [] = None -> (forall c r, In c x -> m (c :: r) = None) -> forall y, cut m 0 (x ++ y) = x ++ cut m 0 y.
Proof. induction x as [|c x IH]; intros N F y; [reflexivity|]. cbn [app cut]. rewrite (F c) by (left; auto). cbn [app]. f_equal. apply IH; auto. intros; apply F; right; auto. Qed.
Lemma run_stop p x c y : forallb p x = true -> p c = false -> run p (x ++ c :: y) = length x.
Proof. induction x as [|a x IH]; intros F N; cbn [app run]; [rewrite N; reflexivity|]. cbn [forallb] in F. apply andb_prop in F as [F1 F2]. rewrite F1. cbn [length]. rewrite IH; auto. Qed.
Lemma skipn_len {A} (x y : list A) : skipn (length x) (x ++ y) = y.
Proof. induction x; auto. Qed.
Lemma firstn_len {A} (x y : list A) : firstn (length x) (x ++ y) = x.
Proof. induction x; cbn; congruence. Qed.
Lemma prefix_app p y : prefix p (p ++ y) = true.
Proof. induction p as [|a p IH]; [reflexivity|]. cbn. rewrite Z.eqb_refl. auto. Qed.
Lemma prefix_spec p : forall s, prefix p s = true <-> exists r, s = p ++ r.
Proof.
  induction p as [|a p IH]; intros s; cbn [prefix]; [split; [intros _; exists s; reflexivity|reflexivity]|]. destruct s as [|b s]; [split; [discriminate|intros (r & R); discriminate]|].
  rewrite andb_true_iff, IH. split.
  - intros [A (r & ->)]. exists r. cbn. f_equal. lia.
  - intros (r & R). cbn in R. injection R as -> ->. split; [lia|eauto].
Qed.
Lemma contains_spec p : forall s, contains p s = true <-> exists a r, s = a ++ p ++ r.
Proof.
  induction s as [|c s IH]; cbn [contains]; rewrite orb_true_iff, prefix_spec.
  - split; [intros [(r & R)|?]; [exists [], r; auto|discriminate]|]. intros (a & r & R). left. exists r. destruct a; [exact R|discriminate].
  - rewrite IH. split.
    + intros [(r & R)|(a & r & R)]; [exists [], r; auto|exists (c :: a), r; cbn; congruence].
    + intros (a & r & R). destruct a as [|d a]; [left; eauto|right]. cbn in R. injection R as -> R. eauto.
Qed.

(* ---------- HTML ---------- *)
Lemma esc_no t c : In c [34; 39; 60; 62] -> ~ In c (escape t).
Proof.
  intros C I. unfold escape in I. apply in_flat_map in I as (x & _ & X). unfold esc_byte in X.
  destruct (x =? 38) eqn:E1; [cbv in X; cbn in C; intuition congruence|]. destruct (x =? 39) eqn:E2; [cbv in X; cbn in C; intuition congruence|].
  destruct (x =? 60) eqn:E3; [cbv in X; cbn in C; intuition congruence|]. destruct (x =? 62) eqn:E4; [cbv in X; cbn in C; intuition congruence|].
  destruct (x =? 34) eqn:E5; [cbv in X; cbn in C; intuition congruence|]. destruct X as [<-|[]]. cbn in C. lia.
Qed.
Lemma tag_text x y : ~ In 60 x -> cut tag 0 (x ++ y) = x ++ cut tag 0 y.
Proof.
  intros N. apply cut_id; [reflexivity|]. intros c r I. assert (c <> 60) by (intros ->; auto). unfold tag. destruct c as [|h|h]; try reflexivity.
  repeat (destruct h as [h|h|]; try reflexivity). congruence.
Qed.
Lemma tag_tag x y : ~ In 62 x -> cut tag 0 (60 :: x ++ 62 :: y) = cut tag 0 y.
Proof.
  intros N. cbn [cut]. unfold tag at 1.
  assert (R : run (fun c => negb (c =? 62)) (x ++ 62 :: y) = length x) by (apply run_stop; [apply forallb_forall; intros c I; assert (c <> 62) by (intros ->; auto); lia|reflexivity]).
  rewrite R, skipn_len. cbn [Nat.add pred]. replace (S (length x)) with (length (x ++ [62])) by (rewrite app_length; cbn; lia).
  change (62 :: y) with ([62] ++ y). rewrite app_assoc. apply cut_skip.
Qed.

Section E.
Variable others : list Z -> list Z.
Lemma unescape_skip x : forall y, unescape others (length x) (x ++ y) = unescape others 0 y.
Proof using. induction x as [|c x IH]; intros y; [reflexivity|]. cbn [length app unescape]. apply IH. Qed.
Lemma unescape_ref name c y : unescape_entity others (name ++ y) = ([c], S (length name)) -> unescape others 0 (38 :: name ++ y) = c :: unescape others 0 y.
Proof using. intros U. cbn [unescape]. rewrite Z.eqb_refl, U. cbn [pred app]. f_equal. apply unescape_skip. Qed.
Lemma unescape_esc c y : unescape others 0 (esc_byte c ++ y) = c :: unescape others 0 y.
Proof using.
  unfold esc_byte.
  destruct (c =? 38) eqn:E1; [apply Z.eqb_eq in E1; subst c; apply (unescape_ref (B "amp;")); reflexivity|].
  destruct (c =? 39) eqn:E2; [apply Z.eqb_eq in E2; subst c; apply (unescape_ref (B "#39;")); reflexivity|].
  destruct (c =? 60) eqn:E3; [apply Z.eqb_eq in E3; subst c; apply (unescape_ref (B "lt;")); reflexivity|].
  destruct (c =? 62) eqn:E4; [apply Z.eqb_eq in E4; subst c; apply (unescape_ref (B "gt;")); reflexivity|].
  destruct (c =? 34) eqn:E5; [apply Z.eqb_eq in E5; subst c; apply (unescape_ref (B "#34;")); reflexivity|].
  cbn [app unescape]. rewrite E1. reflexivity.
Qed.
Lemma unescape_escape t y : unescape others 0 (escape t ++ y) = t ++ unescape others 0 y.
Proof using. induction t as [|c t IH]; [reflexivity|]. cbn [escape flat_map]. fold (escape t). rewrite <- app_assoc, unescape_esc. cbn [app]. f_equal. exact IH. Qed.
End E.

Lemma contains_no60 p q x y : ~ In 60 x -> contains (60 :: p) (x ++ q ++ y) = contains (60 :: p) (q ++ y).
Proof.
  induction x as [|c x IH]; intros N; [reflexivity|]. cbn [app contains prefix]. assert (c <> 60) by (intros ->; apply N; left; auto).
  destruct (60 =? c) eqn:E; [lia|]. cbn [andb orb]. apply IH. intros I; apply N; right; auto.
Qed.
Lemma contains_text p x y : ~ In 60 x -> contains (60 :: p) (x ++ y) = contains (60 :: p) y.
Proof. intros N. apply (contains_no60 p [] x y N). Qed.
Lemma first_match_no34 s : ~ In 34 s -> first_match html_color s = None.
Proof.
  induction s as [|c s IH]; intros N; [reflexivity|]. cbn [first_match].
  assert (Q : html_color (c :: s) = None).
  { unfold html_color. destruct (prefix (B "style=""color:") (c :: s)) eqn:E; [|reflexivity]. apply prefix_spec in E as (r & E). rewrite E in N. exfalso. apply N. apply in_or_app. left. cbv. tauto. }
  rewrite Q. apply IH. intros I; apply N; right; auto.
Qed.
Lemma html_color_at c y : valid_color c = true -> html_color (B "style=""color:" ++ c ++ B """>" ++ y) = Some c.
Proof.
  intros V. unfold html_color. rewrite prefix_app, skipn_len.
  assert (Q : exists a b d e f g, c = [35; a; b; d; e; f; g]).
  { unfold valid_color in V. destruct c as [|[|h|] c]; try discriminate. repeat (destruct h as [h|h|]; try discriminate). apply andb_prop in V as [V _]. apply Nat.eqb_eq in V.
    do 6 (destruct c as [|? c]; [discriminate|]). destruct c; [|discriminate]. repeat eexists. }
  destruct Q as (a & b & d & e & f & g & ->). cbn [app]. cbn [run]. change (re_space 35) with false. cbn iota. cbn [skipn firstn]. rewrite V. reflexivity.
Qed.
