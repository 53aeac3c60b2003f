From Coq Require Import String Ascii.
From Verif Require Import Prelude Utf8 KeysModel CfModel.
Close Scope string_scope. Open Scope list_scope. Open Scope Z_scope.
(** The codes of an ASCII text. *)
Definition zs (s : string) : list Z := map (fun a => Z.of_N (N_of_ascii a)) (list_ascii_of_string s).

Definition cf_ok (c : cf) : Prop := (length (buttons c) = 2%nat \/ length (buttons c) = 3%nat) /\ 0 <= foc c < Z.of_nat (length (buttons c)).
Lemma find_no_rng ls : forall i j, find_no ls i = Some j -> i <= j < i + Z.of_nat (length ls).
Proof. induction ls as [|l ls IH]; intros i j; cbn [find_no]; [discriminate|]. destruct (list_eqb l l_no); [intros H; apply some_inj in H; subst; cbn [length]; lia|]. intros H. apply IH in H. cbn [length]. lia. Qed.
Lemma find_key_rng ls r : forall i j, find_key ls r i = Some j -> i <= j < i + Z.of_nat (length ls).
Proof. induction ls as [|l ls IH]; intros i j; cbn [find_key]; [discriminate|]. destruct (matches_key l r); [intros H; apply some_inj in H; subst; cbn [length]; lia|]. intros H. apply IH in H. cbn [length]. lia. Qed.
Lemma with_buttons_ok c ls : cf_ok c -> (length ls = 2%nat \/ length ls = 3%nat) -> cf_ok (with_buttons c ls).
Proof. intros [K1 K2] L. split; [exact L|]. unfold with_buttons. cbv zeta. cbn [foc buttons]. destruct (_ <=? _) eqn:?; match goal with |- context [if ?b then _ else _] => destruct b eqn:? end; lia. Qed.
Lemma with_foc_ok c i : cf_ok c -> 0 <= i < nb c -> cf_ok (with_foc c i).
Proof. intros [K1 K2] H. split; auto. Qed.
Lemma left_ok c : cf_ok c -> cf_ok (move_left c).
Proof. intros K. apply with_foc_ok; auto. destruct K as [K1 K2]. unfold nb. destruct (_ <? 0) eqn:?; lia. Qed.
Lemma right_ok c : cf_ok c -> cf_ok (move_right c).
Proof. intros K. apply with_foc_ok; auto. destruct K as [K1 K2]. unfold nb. destruct (_ <=? _) eqn:?; lia. Qed.
Lemma confirm_ok c : cf_ok c -> cf_ok (confirm c).
Proof. intros K. unfold confirm. destruct (_ || _); exact K. Qed.
Lemma key_ok c r : cf_ok c -> cf_ok (confirm_key c r).
Proof. intros K. unfold confirm_key. destruct (find_key _ _ _) as [i|] eqn:E; auto. apply find_key_rng in E. apply confirm_ok, with_foc_ok; auto. Qed.
Lemma cstep_ok c o : cf_ok c -> cf_ok (cstep c o).
Proof.
  intros K. assert (B2 : length (base2 c) = 2%nat \/ length (base2 c) = 3%nat) by (unfold base2; destruct (_ <? 2); [left; reflexivity|apply K]).
  destruct o as [k|l|l|b| |]; cbn [cstep].
  - unfold handle. destruct (done c); auto. destruct (ktype k); cbn [fst]; auto using left_ok, right_ok, confirm_ok, key_ok. destruct (kshift k); auto using left_ok, right_ok.
  - apply with_buttons_ok; auto. destruct (base2 c); cbn [length] in *; lia.
  - apply with_buttons_ok; auto. destruct (base2 c) as [|a [|d r]]; cbn [length] in *; lia.
  - apply with_buttons_ok; auto. destruct K as [K1 K2]. unfold nb. destruct (b && _) eqn:E1; [rewrite app_length; cbn [length]; apply andb_true_iff in E1 as [_ E1]; lia|].
    destruct (negb b && _) eqn:E2; auto. rewrite firstn_length. lia.
  - apply with_foc_ok; auto. destruct K. unfold nb. lia.
  - apply with_foc_ok; auto. destruct (find_no _ _) as [i|] eqn:E; [apply find_no_rng in E; unfold nb; lia|]. destruct K. unfold nb. lia.
Qed.

(* ---------- C38 ---------- *)
(** After any calls and keys there are two or three buttons and the focus is on one of them. *)
Theorem C38_focus_on_existing_button : forall ops, let c := csteps ops new_cf in
  (length (buttons c) = 2 \/ length (buttons c) = 3)%nat /\ 0 <= foc c < Z.of_nat (length (buttons c)).
Proof.
  intros ops. assert (K : forall c, cf_ok c -> cf_ok (csteps ops c)) by (induction ops as [|o ops IH]; intros c K; [exact K|apply IH, cstep_ok, K]).
  apply K. split; cbn; [left; auto|lia].
Qed.
(** Right and Tab move the focus one button on, round the end; Left and Shift-Tab one back; neither answers. *)
Theorem C38_focus_moves_round : forall ops, let c := csteps ops new_cf in done c = false ->
  let n := Z.of_nat (length (buttons c)) in
  (forall k, ktype k = KRight \/ (ktype k = KTab /\ kshift k = false) -> fst (handle c k) = with_foc c ((foc c + 1) mod n) /\ snd (handle c k) = None) /\
  (forall k, ktype k = KLeft \/ (ktype k = KTab /\ kshift k = true) -> fst (handle c k) = with_foc c ((foc c - 1) mod n) /\ snd (handle c k) = None).
Proof.
  intros ops c D n. pose proof (C38_focus_on_existing_button ops) as [K1 K2]. fold c in K1, K2. fold n in K2.
  assert (R : move_right c = with_foc c ((foc c + 1) mod n)). { unfold move_right, nb. fold n. f_equal. destruct (n <=? foc c + 1) eqn:E; [replace (foc c + 1) with n by lia; now rewrite Z.mod_same by lia|]. rewrite Z.mod_small; lia. }
  assert (L : move_left c = with_foc c ((foc c - 1) mod n)). { unfold move_left, nb. fold n. f_equal. destruct (foc c - 1 <? 0) eqn:E; [|rewrite Z.mod_small; lia]. replace (foc c - 1) with (-1) by lia. rewrite <- (Z_mod_plus_full (-1) 1 n). rewrite Z.mod_small; lia. }
  unfold handle. rewrite D. split; intros k [H|[H H2]]; rewrite H; rewrite ?H2; cbn [fst snd]; auto.
Qed.
(** With the standard buttons (Yes, No and perhaps Cancel) Enter answers what the focused button says, y/n/c (either case) and
    Escape answer at once, and whatever is answered is what the returned message carries. *)
Definition std (c : cf) : Prop := (buttons c = [l_yes; l_no] \/ buttons c = [l_yes; l_no; l_cancel]) /\ 0 <= foc c < Z.of_nat (length (buttons c)).
Definition meaning (i : Z) : result := if i =? 0 then RYes else if i =? 1 then RNo else RCanceled.
Theorem C38_answers : forall c, std c -> done c = false ->
  (snd (handle c (plain KEnter)) = Some (meaning (foc c)) /\ res (fst (handle c (plain KEnter))) = meaning (foc c) /\ done (fst (handle c (plain KEnter))) = true) /\
  (snd (handle c (plain KEsc)) = Some RCanceled /\ res (fst (handle c (plain KEsc))) = RCanceled /\ done (fst (handle c (plain KEsc))) = true) /\
  (forall r, r = 121 \/ r = 89 -> snd (handle c (rune_key r)) = Some RYes /\ res (fst (handle c (rune_key r))) = RYes /\ done (fst (handle c (rune_key r))) = true) /\
  (forall r, r = 110 \/ r = 78 -> snd (handle c (rune_key r)) = Some RNo /\ res (fst (handle c (rune_key r))) = RNo /\ done (fst (handle c (rune_key r))) = true) /\
  (forall r, r = 99 \/ r = 67 -> if (length (buttons c) =? 3)%nat then snd (handle c (rune_key r)) = Some RCanceled /\ res (fst (handle c (rune_key r))) = RCanceled else handle c (rune_key r) = (c, None)) /\
  (forall r, ~ In r [121; 89; 110; 78; 99; 67] -> handle c (rune_key r) = (c, None)).
Proof.
  intros [bs f r0 d] [B F] D. cbn [buttons foc done] in *. subst d.
  assert (CC : f = 0 \/ f = 1 \/ f = 2) by (destruct B as [B|B]; rewrite B in F; cbn [length] in F; lia).
  assert (C2 : buttons (Cf bs f r0 false) = [l_yes; l_no] -> f <> 2) by (cbn [buttons]; intros E; rewrite E in F; cbn [length] in F; lia).
  split; [|split; [|split; [|split; [|split]]]].
  - destruct B; subst bs; destruct CC as [H|[H|H]]; subst f; try (destruct (C2 eq_refl); reflexivity); repeat split; reflexivity.
  - repeat split; reflexivity.
  - intros r [H|H]; subst r; destruct B; subst bs; repeat split; reflexivity.
  - intros r [H|H]; subst r; destruct B; subst bs; repeat split; reflexivity.
  - intros r [H|H]; subst r; destruct B; subst bs; cbn; auto.
  - intros r N. assert (M : forall x, In x [121; 110; 99] -> x <> lower r).
    { intros x I E. apply N. unfold lower in E. cbn in I |- *. destruct (_ && _) eqn:Q; lia. }
    pose proof (M 121 ltac:(cbn; auto)) as M1. pose proof (M 110 ltac:(cbn; auto)) as M2. pose proof (M 99 ltac:(cbn; auto)) as M3.
    assert (X : confirm_key (Cf bs f r0 false) r = Cf bs f r0 false).
    { unfold confirm_key. cbn [buttons]. destruct B; subst bs; cbn [find_key]; unfold matches_key; cbn [hd l_yes l_no l_cancel]; change (lower 89) with 121; change (lower 78) with 110; change (lower 67) with 99;
        rewrite ?(proj2 (Z.eqb_neq _ _) M1), ?(proj2 (Z.eqb_neq _ _) M2), ?(proj2 (Z.eqb_neq _ _) M3); reflexivity. }
    unfold handle. cbn [done]. change (ktype (rune_key r)) with KRune. change (krune (rune_key r)) with r. cbv iota zeta. rewrite X. reflexivity.
Qed.
(** The safe default: of a fresh confirmation, optionally given a Cancel button, Enter answers No. *)
Theorem C38_default_is_no : forall cs, Forall (fun o => exists b, o = CWithCancel b) cs -> snd (handle (csteps cs new_cf) (plain KEnter)) = Some RNo.
Proof.
  intros cs F. assert (G : forall c, (buttons c = [l_yes; l_no] \/ buttons c = [l_yes; l_no; l_cancel]) -> foc c = 1 -> done c = false ->
    (buttons (csteps cs c) = [l_yes; l_no] \/ buttons (csteps cs c) = [l_yes; l_no; l_cancel]) /\ foc (csteps cs c) = 1 /\ done (csteps cs c) = false).
  { induction F as [|o cs (b & ->) F IH]; intros c B E D; [auto|]. change (csteps (CWithCancel b :: cs) c) with (csteps cs (cstep c (CWithCancel b))). destruct c as [bs f r d]. cbn [buttons foc done] in *. subst f d.
    apply IH; destruct B; subst bs; destruct b; cbn; auto. }
  destruct (G new_cf) as (B & E & D); auto. destruct (C38_answers (csteps cs new_cf)) as [A _]; auto; [split; auto; rewrite E; destruct B as [B|B]; rewrite B; cbn; lia|].
  rewrite E in A. apply A.
Qed.
(** Once answered, no key changes anything or produces another message. *)
Theorem C38_answer_is_final : forall ks c, done c = true -> csteps (map CKey ks) c = c /\ forall k, handle c k = (c, None).
Proof.
  intros ks c D. assert (H : forall k, handle c k = (c, None)) by (intros k; unfold handle; now rewrite D). split; auto.
  induction ks as [|k ks IH]; [reflexivity|]. cbn [map]. change (csteps (CKey k :: map CKey ks) c) with (csteps (map CKey ks) (cstep c (CKey k))). cbn [cstep]. now rewrite H.
Qed.
Example C38_ex : let c := csteps [CWithCancel true; CKey (plain KTab)] new_cf in foc c = 2 /\ std c /\ snd (handle c (plain KEnter)) = Some RCanceled.
Proof. split; [reflexivity|]. split; [split; [right; reflexivity|cbn; lia]|reflexivity]. Qed.


(** Before an answer there is no result; after it there is exactly one. IsYes, IsNo and IsCanceled say which. *)
Definition answered (c : cf) : Prop := done c = negb (match res c with RNone => true | _ => false end).
Lemma label_result_some c l : label_result c l <> RNone.
Proof. unfold label_result. repeat match goal with |- context [if ?b then _ else _] => destruct b end; discriminate. Qed.
Lemma confirm_answered c : cf_ok c -> answered (confirm c) /\ done (confirm c) = true.
Proof.
  intros [_ K]. unfold confirm, nb. replace ((foc c <? 0) || (Z.of_nat (length (buttons c)) <=? foc c)) with false by lia. split; [|reflexivity].
  unfold answered. cbn [done res]. pose proof (label_result_some c (nth (Z.to_nat (foc c)) (buttons c) [])). now destruct (label_result _ _).
Qed.
Lemma key_answered c r : cf_ok c -> answered c -> answered (confirm_key c r).
Proof. intros K A. unfold confirm_key. destruct (find_key _ _ _) as [i|] eqn:E; auto. apply find_key_rng in E. apply confirm_answered, with_foc_ok; auto. Qed.
Lemma cstep_answered c o : cf_ok c -> answered c -> answered (cstep c o).
Proof.
  intros K A. destruct o as [k|l|l|b| |]; cbn [cstep]; auto. unfold handle. destruct (done c) eqn:D; auto.
  destruct (ktype k); cbn [fst]; auto; try (now apply key_answered); try (now apply confirm_answered); try (unfold answered, move_left, move_right, with_foc; cbn [done res]; exact A); try (destruct (kshift k); exact A); reflexivity.
Qed.
Lemma csteps_inv ops : forall c, cf_ok c -> answered c -> cf_ok (csteps ops c) /\ answered (csteps ops c).
Proof. induction ops as [|o ops IH]; intros c K A; [auto|]. apply IH; [now apply cstep_ok|now apply cstep_answered]. Qed.
Lemma reach_inv ops : cf_ok (csteps ops new_cf) /\ answered (csteps ops new_cf).
Proof. apply csteps_inv; [split; cbn; [left; auto|lia]|reflexivity]. Qed.
Theorem C38_queries : forall ops, let c := csteps ops new_cf in
  (done c = false -> res c = RNone /\ is_yes c = false /\ is_no c = false /\ is_canceled c = false) /\
  (done c = true -> res c <> RNone /\ (is_yes c = true <-> res c = RYes) /\ (is_no c = true <-> res c = RNo) /\ (is_canceled c = true <-> res c = RCanceled)).
Proof.
  intros ops c. destruct (reach_inv ops) as [_ A]. fold c in A. unfold answered in A. unfold is_yes, is_no, is_canceled. clearbody c.
  destruct (res c); cbn in A; rewrite A; (split; intros D; [try discriminate D|try discriminate D]); repeat split; intros; try reflexivity; try discriminate.
Qed.
(** What each call does: Affirmative replaces the first label and Negative the second, WithCancel(true) adds a Cancel button to
    two, WithCancel(false) takes the third away; these keep the focus unless its button is gone, then it is on the last one left.
    DefaultYes focuses the first, DefaultNo the first labelled No or, if there is none, the last. No call answers or takes an answer back. *)
Theorem C38_calls : forall ops, let c := csteps ops new_cf in
  exists a n rest, buttons c = a :: n :: rest /\ (rest = [] \/ exists x, rest = [x]) /\
  (forall l, cstep c (CAffirmative l) = Cf (l :: n :: rest) (foc c) (res c) (done c)) /\
  (forall l, cstep c (CNegative l) = Cf (a :: l :: rest) (foc c) (res c) (done c)) /\
  cstep c (CWithCancel true) = Cf (a :: n :: match rest with [] => [l_cancel] | _ => rest end) (foc c) (res c) (done c) /\
  cstep c (CWithCancel false) = Cf [a; n] (if foc c =? 2 then 1 else foc c) (res c) (done c) /\
  cstep c CDefaultYes = Cf (buttons c) 0 (res c) (done c) /\
  (exists i, cstep c CDefaultNo = Cf (buttons c) i (res c) (done c) /\
     ((nth_error (buttons c) (Z.to_nat i) = Some l_no /\ forall j, (j < Z.to_nat i)%nat -> nth_error (buttons c) j <> Some l_no) \/
      (~ In l_no (buttons c) /\ i = Z.of_nat (length (buttons c)) - 1))).
Proof.
  intros ops c. destruct (reach_inv ops) as [[K1 K2] _]. fold c in K1, K2. clearbody c. destruct c as [bs f r d]. cbn [buttons foc res done] in *.
  destruct bs as [|a [|n rest]]; [cbn in K1; lia|cbn in K1; lia|].
  assert (R : rest = [] \/ exists x, rest = [x]) by (destruct rest as [|x [|y t]]; [auto|right; eauto|cbn in K1; lia]).
  exists a, n, rest. split; [reflexivity|]. split; [exact R|].
  assert (WB : forall ls : list (list Z), (length ls = 2 \/ length ls = 3)%nat -> with_buttons (Cf (a :: n :: rest) f r d) ls = Cf ls (if Z.of_nat (length ls) <=? f then Z.of_nat (length ls) - 1 else f) r d).
  { intros ls L. unfold with_buttons. cbv zeta. cbn [foc res done]. f_equal. destruct (Z.of_nat (length ls) <=? f) eqn:?; match goal with |- context [?x <? 0] => destruct (x <? 0) eqn:? end; lia. }
  assert (F3 : f < 3) by (destruct K1 as [K1|K1]; rewrite K1 in K2; lia).
  assert (B2 : base2 (Cf (a :: n :: rest) f r d) = a :: n :: rest) by (unfold base2, nb; cbn [buttons]; replace (Z.of_nat (length (a :: n :: rest)) <? 2) with false by (cbn [length]; lia); reflexivity).
  assert (Hlt : forall ls : list (list Z), length ls = length (a :: n :: rest) -> (if Z.of_nat (length ls) <=? f then Z.of_nat (length ls) - 1 else f) = f) by (intros ls E; rewrite E; destruct (_ <=? _) eqn:?; lia).
  split; [|split; [|split; [|split; [|split]]]].
  - intros l. cbn [cstep]. rewrite B2. rewrite WB by (cbn [length] in *; lia). now rewrite Hlt.
  - intros l. cbn [cstep]. rewrite B2. rewrite WB by (cbn [length] in *; lia). now rewrite Hlt.
  - cbn [cstep andb negb]. unfold nb. cbn [buttons]. destruct R as [->|[x ->]]; cbn [length app Z.of_nat Z.eqb Pos.of_succ_nat Pos.succ Pos.eqb]; rewrite WB by (cbn; auto); (f_equal; destruct (_ <=? _) eqn:?; cbn [length] in *; lia).
  - cbn [cstep andb negb]. unfold nb. cbn [buttons]. destruct R as [->|[x ->]]; cbn [length app firstn Z.of_nat Z.eqb Pos.of_succ_nat Pos.succ Pos.eqb]; rewrite WB by (cbn; auto); (f_equal; destruct (_ <=? _) eqn:?; destruct (f =? 2) eqn:?; cbn [length] in *; lia).
  - reflexivity.
  - cbn [cstep]. unfold default_no, with_foc. cbn [buttons res done]. destruct (find_no (a :: n :: rest) 0) as [i|] eqn:E.
    + exists i. split; [reflexivity|]. left.
      assert (G : forall ls i0 i, 0 <= i0 -> find_no ls i0 = Some i -> nth_error ls (Z.to_nat (i - i0)) = Some l_no /\ forall j, (j < Z.to_nat (i - i0))%nat -> nth_error ls j <> Some l_no).
      { clear. induction ls as [|l ls IH]; intros i0 i P; cbn [find_no]; [discriminate|]. destruct (list_eqb l l_no) eqn:Q.
        - intros H. apply some_inj in H. subst. rewrite Z.sub_diag. cbn. apply list_eqb_eq in Q. subst. split; [reflexivity|intros j; lia].
        - intros H. pose proof (find_no_rng _ _ _ H) as Rg. apply IH in H; [|lia]. destruct H as [H1 H2]. replace (Z.to_nat (i - i0)) with (S (Z.to_nat (i - (i0 + 1)))) by lia.
          split; [exact H1|]. intros [|j] J; cbn [nth_error]; [|apply H2; lia]. intros X. apply some_inj in X. subst. clear - Q. assert (Y : list_eqb l_no l_no = true) by reflexivity. congruence. }
      apply G in E; [|lia]. now rewrite Z.sub_0_r in E.
    + eexists. split; [reflexivity|]. right. split; [|reflexivity].
      assert (G : forall ls i0, find_no ls i0 = None -> ~ In l_no ls).
      { clear. induction ls as [|l ls IH]; intros i0; cbn [find_no]; [auto|]. destruct (list_eqb l l_no) eqn:Q; [discriminate|]. intros H [X|X]; [subst; discriminate Q|now apply (IH _ H)]. }
      now apply G in E.
Qed.
(** Whatever the labels: Enter answers for the focused button, by its label if that is Yes, No or Cancel, otherwise Yes for the first button and No for any other. *)
Definition by_label (l : list Z) (i : nat) (r : result) : Prop :=
  (l = l_yes /\ r = RYes) \/ (l = l_no /\ r = RNo) \/ (l = l_cancel /\ r = RCanceled) \/ (~ In l [l_yes; l_no; l_cancel] /\ r = if (i =? 0)%nat then RYes else RNo).
Lemma label_result_by c l : 0 <= foc c -> by_label l (Z.to_nat (foc c)) (label_result c l).
Proof.
  intros P. unfold label_result, by_label. destruct (list_eqb l l_yes) eqn:Y; [apply list_eqb_eq in Y; auto|]. destruct (list_eqb l l_no) eqn:N; [apply list_eqb_eq in N; auto|].
  destruct (list_eqb l l_cancel) eqn:K; [apply list_eqb_eq in K; auto 6|]. right. right. right. split.
  - intros [E|[E|[E|[]]]]; subst; discriminate.
  - destruct (foc c =? 0) eqn:E0; destruct (Z.to_nat (foc c) =? 0)%nat eqn:E1; try reflexivity; apply Nat.eqb_eq in E1 || apply Nat.eqb_neq in E1; lia.
Qed.
Theorem C38_enter : forall ops, let c := csteps ops new_cf in done c = false -> forall k, ktype k = KEnter ->
  exists l r, nth_error (buttons c) (Z.to_nat (foc c)) = Some l /\ by_label l (Z.to_nat (foc c)) r /\ handle c k = (Cf (buttons c) (foc c) r true, Some r).
Proof.
  intros ops c D k H. destruct (reach_inv ops) as [[K1 K2] _]. fold c in K1, K2. clearbody c. unfold handle. rewrite D, H. cbv zeta. unfold confirm, nb.
  replace ((foc c <? 0) || (Z.of_nat (length (buttons c)) <=? foc c)) with false by lia. cbn [res].
  exists (nth (Z.to_nat (foc c)) (buttons c) []), (label_result c (nth (Z.to_nat (foc c)) (buttons c) [])). split; [apply nth_error_nth'; lia|]. split; [apply label_result_by; lia|reflexivity].
Qed.
(** A typed character answers for the first button whose label starts with it, either case of the English letters, and does nothing
    if there is none (an empty label counts as starting with NUL). *)
Definition same_letter (a b : Z) : Prop := a = b \/ (65 <= a <= 90 /\ b = a + 32) \/ (65 <= b <= 90 /\ a = b + 32).
Lemma lower_same a b : lower a = lower b <-> same_letter a b.
Proof. unfold lower, same_letter. destruct ((65 <=? a) && (a <=? 90)) eqn:A; destruct ((65 <=? b) && (b <=? 90)) eqn:E; lia. Qed.
Lemma find_key_spec ls r : forall i0, match find_key ls r i0 with
  | Some i => i0 <= i /\ (exists l, nth_error ls (Z.to_nat (i - i0)) = Some l /\ same_letter (hd 0 l) r) /\ forall j l, (j < Z.to_nat (i - i0))%nat -> nth_error ls j = Some l -> ~ same_letter (hd 0 l) r
  | None => forall l, In l ls -> ~ same_letter (hd 0 l) r end.
Proof.
  induction ls as [|l ls IH]; intros i0; cbn [find_key]; [intros l []|]. unfold matches_key. destruct (lower (hd 0 l) =? lower r) eqn:E.
  - apply Z.eqb_eq, lower_same in E. split; [lia|]. rewrite Z.sub_diag. split; [exists l; split; [reflexivity|exact E]|]. intros j l' J. exfalso. cbn in J. lia.
  - apply Z.eqb_neq in E. assert (E' : ~ same_letter (hd 0 l) r) by (intros X; apply E; now apply lower_same). specialize (IH (i0 + 1)). destruct (find_key ls r (i0 + 1)) as [i|].
    + destruct IH as (I1 & I2 & I3). split; [lia|]. replace (Z.to_nat (i - i0)) with (S (Z.to_nat (i - (i0 + 1)))) by lia. split; [exact I2|].
      intros [|j] l' J N; cbn [nth_error] in N; [apply some_inj in N; now subst|apply (I3 j); auto; lia].
    + intros l' [X|X]; [now subst|now apply IH].
Qed.
Theorem C38_shortcuts : forall ops, let c := csteps ops new_cf in done c = false -> forall k, ktype k = KRune ->
  ((forall l, In l (buttons c) -> ~ same_letter (hd 0 l) (krune k)) -> handle c k = (c, None)) /\
  (forall i l, nth_error (buttons c) i = Some l -> same_letter (hd 0 l) (krune k) -> (forall j l', (j < i)%nat -> nth_error (buttons c) j = Some l' -> ~ same_letter (hd 0 l') (krune k)) ->
     exists r, by_label l i r /\ handle c k = (Cf (buttons c) (Z.of_nat i) r true, Some r)).
Proof.
  intros ops c D k H. clearbody c. unfold handle. rewrite D, H. cbv zeta. unfold confirm_key. pose proof (find_key_spec (buttons c) (krune k) 0) as F. split.
  - intros N. destruct (find_key _ _ _) as [i|]; [|now rewrite D]. destruct F as (_ & (l & E & S) & _). apply nth_error_In in E. destruct (N _ E S).
  - intros i l E S Fst. destruct (find_key _ _ _) as [i'|].
    + destruct F as (P & (l' & E' & S') & F'). rewrite Z.sub_0_r in *. assert (X : Z.to_nat i' = i).
      { destruct (Nat.lt_trichotomy (Z.to_nat i') i) as [L|[L|L]]; auto; [destruct (Fst _ _ L E' S')|destruct (F' _ _ L E S)]. }
      assert (i' = Z.of_nat i) by lia. subst i'. rewrite Nat2Z.id in *. assert (l' = l) by congruence. subst l'. assert (Lt : (i < length (buttons c))%nat) by (apply nth_error_Some; congruence).
      unfold confirm, nb, with_foc. cbn [foc buttons res done]. replace ((Z.of_nat i <? 0) || (Z.of_nat (length (buttons c)) <=? Z.of_nat i)) with false by lia. cbn [done res].
      rewrite Nat2Z.id. rewrite (nth_error_nth _ _ [] E). eexists. split; [|reflexivity].
      pose proof (label_result_by (Cf (buttons c) (Z.of_nat i) (res c) (done c)) l ltac:(cbn [foc]; lia)) as B. cbn [foc] in B. now rewrite Nat2Z.id in B.
    + apply nth_error_In in E. destruct (F _ E S).
Qed.
(** Every other key is ignored, and Escape cancels, leaving labels and focus alone. *)
Theorem C38_other_keys : forall c k, done c = false ->
  (ktype k = KEsc \/ ktype k = KCtrlC -> handle c k = (Cf (buttons c) (foc c) RCanceled true, Some RCanceled)) /\
  (~ In (ktype k) [KLeft; KRight; KTab; KEnter; KEsc; KCtrlC; KRune] -> handle c k = (c, None)).
Proof.
  intros c k D. unfold handle. rewrite D. split; [intros [-> | ->]; reflexivity|]. intros N. destruct (ktype k); try reflexivity; exfalso; apply N; cbn; tauto.
Qed.
(** The title stays what New was given and the description what Description last set, and View shows both, a blank line and the
    button row, in which the focused button and no other is in square brackets: two views differ whenever the focus does. *)
Definition boxed (f : bool) (l : list Z) : list Z := if f then zs "[ "%string ++ l ++ zs " ]"%string else zs "( "%string ++ l ++ zs " )"%string.
Definition row_of (ls : list (list Z)) (f : nat) : list Z :=
  match ls with [a; b] => boxed (f =? 0)%nat a ++ zs "  "%string ++ boxed (f =? 1)%nat b
  | [a; b; d] => boxed (f =? 0)%nat a ++ zs "  "%string ++ boxed (f =? 1)%nat b ++ zs "  "%string ++ boxed (f =? 2)%nat d | _ => [] end.
Fixpoint last_desc (os : list pop) (d : list Z) : list Z := match os with [] => d | PDescription x :: r => last_desc r x | _ :: r => last_desc r d end.
Lemma psteps_parts os : forall p, ptitle (psteps os p) = ptitle p /\ pdesc (psteps os p) = last_desc os (pdesc p) /\ exists cs, dom (psteps os p) = csteps cs (dom p).
Proof.
  induction os as [|o os IH]; intros p; [split; [reflexivity|split; [reflexivity|now exists []]]|]. change (psteps (o :: os) p) with (psteps os (pstep p o)).
  destruct (IH (pstep p o)) as (A & B & cs & E). rewrite A, B, E. destruct o as [d|o]; cbn [pstep ptitle pdesc dom last_desc]; (split; [reflexivity|split; [reflexivity|]]); [now exists cs|exists (o :: cs); reflexivity].
Qed.
Theorem C179_view : forall t os, let p := psteps os (pnew t) in
  pview p = t ++ [10] ++ (match last_desc os [] with [] => [] | d => d ++ [10] end) ++ [10] ++ row_of (buttons (dom p)) (Z.to_nat (foc (dom p))).
Proof.
  intros t os p. destruct (psteps_parts os (pnew t)) as (A & B & cs & E). fold p in A, B, E. cbn [pnew ptitle pdesc dom] in A, B, E. unfold pview. rewrite A, B. destruct (reach_inv cs) as [[K1 K2] _]. rewrite <- E in K1, K2.
  f_equal. f_equal. f_equal; [now destruct (last_desc os [])|]. f_equal. clear A B E. revert K1 K2. generalize (foc (dom p)). intros f. generalize (buttons (dom p)). intros bs.
  assert (RB : forall l (b b' : bool), b = b' -> rbutton l b = boxed b' l) by (intros l b b' ->; now destruct b').
  intros [L|L] R; rewrite L in R; destruct bs as [|a [|b [|d [|e bs]]]]; try discriminate L; cbn [rbuttons row_of].
  - change (0 <? 0) with false. change (0 <? 0 + 1) with true. cbv iota. cbn [app]. rewrite (RB a _ (Z.to_nat f =? 0)%nat), (RB b _ (Z.to_nat f =? 1)%nat) by (destruct (Z.to_nat f =? _)%nat eqn:X; apply Nat.eqb_eq in X || apply Nat.eqb_neq in X; lia). now rewrite app_nil_r.
  - change (0 <? 0) with false. change (0 <? 0 + 1) with true. change (0 <? 0 + 1 + 1) with true. cbv iota. cbn [app].
    rewrite (RB a _ (Z.to_nat f =? 0)%nat), (RB b _ (Z.to_nat f =? 1)%nat), (RB d _ (Z.to_nat f =? 2)%nat) by (destruct (Z.to_nat f =? _)%nat eqn:X; apply Nat.eqb_eq in X || apply Nat.eqb_neq in X; lia). now rewrite app_nil_r.
Qed.
Theorem C179_focus_is_visible : forall ls f g, (length ls = 2 \/ length ls = 3)%nat -> (f < length ls)%nat -> (g < length ls)%nat -> row_of ls f = row_of ls g -> f = g.
Proof.
  assert (X : forall x l r r', boxed x l ++ r = boxed x l ++ r' -> r = r') by (intros x l r r' E; now apply app_inv_head in E).
  assert (Y : forall l r r', boxed true l ++ r = boxed false l ++ r' -> False) by (intros l r r' E; apply (f_equal (hd 0)) in E; discriminate E).
  intros [|a [|b [|d [|e ls]]]] f g [L|L] F G E; try discriminate L; cbn [length row_of] in *.
  - destruct f as [|[|f]]; destruct g as [|[|g]]; try lia; cbn [Nat.eqb] in E; exfalso; [eapply Y; exact E|symmetry in E; eapply Y; exact E].
  - destruct f as [|[|[|f]]]; destruct g as [|[|[|g]]]; try lia; cbn [Nat.eqb] in E; exfalso;
      solve [eapply Y; exact E | symmetry in E; eapply Y; exact E
            | apply X in E; apply app_inv_head in E; solve [eapply Y; exact E | symmetry in E; eapply Y; exact E]].
Qed.
(** What the screen of a fresh dialog reads, letter for letter, with and without the Cancel button. *)
Theorem C179_default_screen : forall t d b, pview (psteps [PDescription d; POp (CWithCancel b)] (pnew t)) =
  t ++ [10] ++ (match d with [] => [] | _ => d ++ [10] end) ++ [10] ++ zs "( Yes )  [ No ]"%string ++ (if b then zs "  ( Cancel )"%string else []).
Proof. intros t d b. rewrite (C179_view t [PDescription d; POp (CWithCancel b)]). cbn [last_desc]. destruct d, b; reflexivity. Qed.
Example C179_ex : pview (psteps [PDescription (zs "Sure?"%string); POp (CWithCancel true)] (pnew (zs "Save"%string))) = zs "Save"%string ++ [10] ++ zs "Sure?"%string ++ [10; 10] ++ zs "( Yes )  [ No ]  ( Cancel )"%string.
Proof. reflexivity. Qed.

(* ---------- C82 ---------- *)
Definition plain_label (l : list Z) : Prop := l <> l_yes /\ l <> l_no /\ l <> l_cancel.
Lemma neq_eqb a b : a <> b -> list_eqb a b = false.
Proof. apply list_eqb_neq. Qed.
(** Custom labels other than Yes, No, Cancel, with a Cancel button or not: Enter answers Yes on the affirmative button, No on the
    negative and Canceled on Cancel; DefaultYes focuses the affirmative button, and DefaultNo the negative if there is no Cancel; the
    affirmative's first letter answers Yes, and the negative's first letter, if another one, answers No. *)
Theorem C82_custom_labels : forall a n (wc : bool) i, plain_label a -> plain_label n -> 0 <= i < (if wc then 3 else 2) ->
  let c := csteps [CAffirmative a; CNegative n; CWithCancel wc] new_cf in
  buttons c = (if wc then [a; n; l_cancel] else [a; n]) /\
  snd (handle (with_foc c i) (plain KEnter)) = Some (meaning i) /\
  foc (cstep c CDefaultYes) = 0 /\ (wc = false -> foc (cstep c CDefaultNo) = 1) /\
  (forall r, same_letter (hd 0 a) r -> snd (handle (with_foc c i) (rune_key r)) = Some RYes) /\
  (forall r, same_letter (hd 0 n) r -> ~ same_letter (hd 0 a) r -> snd (handle (with_foc c i) (rune_key r)) = Some RNo).
Proof.
  intros a n wc i (A1 & A2 & A3) (N1 & N2 & N3) R c.
  assert (Ec : c = Cf (if wc then [a; n; l_cancel] else [a; n]) 1 RNone false) by (destruct wc; reflexivity). rewrite Ec. clear c Ec.
  assert (LA : forall f, label_result (Cf (if wc then [a; n; l_cancel] else [a; n]) f RNone false) a = if f =? 0 then RYes else RNo) by (intros f; unfold label_result; now rewrite !(neq_eqb a) by auto).
  assert (LN : forall f, label_result (Cf (if wc then [a; n; l_cancel] else [a; n]) f RNone false) n = if f =? 0 then RYes else RNo) by (intros f; unfold label_result; now rewrite !(neq_eqb n) by auto).
  split; [reflexivity|]. split; [|split; [reflexivity|split; [|split]]].
  - assert (CC : i = 0 \/ i = 1 \/ (i = 2 /\ wc = true)) by (destruct wc; lia). unfold handle. cbn [done with_foc]. cbn [ktype plain]. cbv zeta. unfold with_foc, confirm, nb. cbn [buttons foc res done snd].
    destruct CC as [E|[E|[E E2]]]; [subst i|subst i|subst i wc]; cbn [Z.ltb Z.compare orb];
      try (replace (Z.of_nat (length (if wc then [a; n; l_cancel] else [a; n])) <=? 0) with false by (destruct wc; reflexivity));
      try (replace (Z.of_nat (length (if wc then [a; n; l_cancel] else [a; n])) <=? 1) with false by (destruct wc; reflexivity)); cbn [res].
    + replace (nth (Z.to_nat 0) (if wc then [a; n; l_cancel] else [a; n]) []) with a by (destruct wc; reflexivity). now rewrite LA.
    + replace (nth (Z.to_nat 1) (if wc then [a; n; l_cancel] else [a; n]) []) with n by (destruct wc; reflexivity). now rewrite LN.
    + reflexivity.
  - intros ->. cbn [cstep]. unfold default_no. cbn [buttons find_no]. now rewrite !(neq_eqb a), !(neq_eqb n) by auto.
  - intros r S. unfold handle. cbn [done with_foc ktype krune rune_key]. cbv zeta. unfold confirm_key. cbn [with_foc buttons].
    replace (find_key (if wc then [a; n; l_cancel] else [a; n]) r 0) with (Some 0) by (apply lower_same in S; destruct wc; cbn [find_key]; unfold matches_key; now rewrite S, Z.eqb_refl).
    unfold with_foc, confirm, nb. cbn [buttons foc res done Z.ltb Z.compare orb]. replace (Z.of_nat (length (if wc then [a; n; l_cancel] else [a; n])) <=? 0) with false by (destruct wc; reflexivity). cbn [res done snd].
    replace (nth (Z.to_nat 0) (if wc then [a; n; l_cancel] else [a; n]) []) with a by (destruct wc; reflexivity). now rewrite LA.
  - intros r S NS. unfold handle. cbn [done with_foc ktype krune rune_key]. cbv zeta. unfold confirm_key. cbn [with_foc buttons].
    replace (find_key (if wc then [a; n; l_cancel] else [a; n]) r 0) with (Some 1) by (apply lower_same in S; assert (NE : lower (hd 0 a) <> lower r) by (intros Q; apply NS; now apply lower_same); destruct wc; cbn [find_key]; unfold matches_key; now rewrite (proj2 (Z.eqb_neq _ _) NE), S, Z.eqb_refl).
    unfold with_foc, confirm, nb. cbn [buttons foc res done Z.ltb Z.compare orb]. replace (Z.of_nat (length (if wc then [a; n; l_cancel] else [a; n])) <=? 1) with false by (destruct wc; reflexivity). cbn [res done snd].
    replace (nth (Z.to_nat 1) (if wc then [a; n; l_cancel] else [a; n]) []) with n by (destruct wc; reflexivity). now rewrite LN.
Qed.
Example C82_ex : plain_label (zs "Save"%string) /\ plain_label (zs "Discard"%string) /\ same_letter (hd 0 (zs "Discard"%string)) 100 /\ ~ same_letter (hd 0 (zs "Save"%string)) 100.
Proof. repeat split; try discriminate; [right; left|unfold same_letter]; cbn; lia. Qed.
(* ---------- C180 ---------- *)
(** A negative button called Yes answers Yes. *)
Theorem C180_negative_label_yes_refuted : snd (handle (csteps [CAffirmative [75]; CNegative l_yes] new_cf) (plain KEnter)) = Some RYes.
Proof. reflexivity. Qed.
(** Two labels with the same first letter: its shortcut always takes the first (Delete, Don't: d answers Yes). *)
Theorem C180_shortcut_collision_refuted : snd (handle (csteps [CAffirmative [68; 101; 108]; CNegative [68; 111; 110]] new_cf) (rune_key 100)) = Some RYes.
Proof. reflexivity. Qed.
(** DefaultNo with custom labels and a Cancel button focuses Cancel, so Enter cancels instead of answering No. *)
Theorem C180_default_no_is_cancel_refuted :
  snd (handle (csteps [CAffirmative [68; 101; 108]; CNegative [75; 101; 101; 112]; CWithCancel true; CDefaultNo] new_cf) (plain KEnter)) = Some RCanceled.
Proof. reflexivity. Qed.
(** A label that starts with a letter outside ASCII is reached by the character of its first UTF-8 byte and not by its own: the
    affirmative button "É" (C3 89) ignores É (U+00C9) and answers on Ã (U+00C3). *)
Theorem C180_non_ascii_shortcut_refuted : let c := csteps [CAffirmative [195; 137]] new_cf in
  handle c (rune_key 201) = (c, None) /\ snd (handle c (rune_key 195)) = Some RYes.
Proof. split; reflexivity. Qed.
(* ---------- C83 ---------- *)
(** Ctrl-C as the terminal delivers it (byte 3) does nothing in a standard confirmation, and Ctrl-Y (byte 25) answers Yes. *)
Theorem C83_ctrl_c_ignored_refuted : exists k, parse_key [3] = Some k /\ handle new_cf k = (new_cf, None).
Proof. eexists. split; reflexivity. Qed.
Theorem C83_ctrl_y_answers_yes_refuted : exists k, parse_key [25] = Some k /\ kctrl k = true /\ snd (handle new_cf k) = Some RYes.
Proof. eexists. repeat split; reflexivity. Qed.
(** The component itself cancels on the KeyCtrlC type, which no input produces (C76). *)
Theorem C83_key_ctrl_c_cancels_partial : forall c k, ktype k = KCtrlC -> done c = false -> snd (handle c k) = Some RCanceled /\ res (fst (handle c k)) = RCanceled.
Proof. intros c k H D. unfold handle. rewrite D, H. auto. Qed.

Print Assumptions C38_focus_on_existing_button. Print Assumptions C38_focus_moves_round. Print Assumptions C38_answers. Print Assumptions C38_default_is_no.
Print Assumptions C38_answer_is_final. Print Assumptions C38_queries. Print Assumptions C38_calls. Print Assumptions C38_enter.
Print Assumptions C38_shortcuts. Print Assumptions C38_other_keys. Print Assumptions C179_view. Print Assumptions C179_focus_is_visible.
Print Assumptions C179_default_screen. Print Assumptions C82_custom_labels. Print Assumptions C180_negative_label_yes_refuted. Print Assumptions C180_shortcut_collision_refuted.
Print Assumptions C180_default_no_is_cancel_refuted. Print Assumptions C180_non_ascii_shortcut_refuted. Print Assumptions C83_ctrl_c_ignored_refuted. Print Assumptions C83_ctrl_y_answers_yes_refuted.
Print Assumptions C83_key_ctrl_c_cancels_partial.
