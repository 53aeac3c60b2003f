From Coq Require Import Sorted Permutation.
From Verif Require Import Prelude Utf8 KeysModel SelModel SelSpec SelProofs.

Section Props.
Context {A : Type}.
Variable heap : Z -> A.

(* ---------- C35 ---------- *)
(** After any sequence of key presses and setter calls the cursor denotes an option of the list shown (or nothing is
    shown), every shown option is one of the options given, and an option chosen is one of them. *)
Theorem C35_cursor_valid : forall ops d, let s := dom (ssteps heap ops (@new_sui A d)) in
  (forall p, In p (filtered s) -> In p (options s)) /\
  0 <= cursor s /\ (filtered s <> [] -> cursor s < Z.of_nat (length (filtered s)) /\ focused_value heap s <> None) /\
  (filtered s = [] -> cursor s = 0 /\ focused_value heap s = None).
Proof using.
  intros ops d s. assert (K : sel_ok s) by (apply ssteps_ok, new_sel_ok). destruct K as [K1 K2 K3 K4 K5].
  split; auto. split; [lia|]. split.
  - intros N. assert (L : cursor s < Z.of_nat (length (filtered s))) by (destruct K2 as [_ [K2|[K2 _]]]; [auto|congruence]). split; auto.
    unfold focused_value. destruct (at_in (filtered s) (cursor s)) as (p & E & _); [lia|]. rewrite E. discriminate.
  - intros N. split; [destruct K2 as [K0 [K2|[_ K2]]]; [rewrite N in K2; cbn [length] in K2; lia|auto]|].
    unfold focused_value. rewrite at_out; auto. rewrite N. cbn. lia.
Qed.
(** Rendering never crashes; it draws min(height, what is left) consecutive options starting at [first_row], each with its
    own index, and the option under the cursor is drawn, focused, and is the only focused one. *)
Theorem C35_window : forall ops d, let s := dom (ssteps heap ops (@new_sui A d)) in
  exists rows, render_visible s = Some rows /\
  Z.of_nat (length rows) = Z.min (height s) (Z.of_nat (length (filtered s)) - first_row s) /\
  (forall i p j b, nth_error rows i = Some (p, j, b) ->
     j = first_row s + Z.of_nat i /\ nth_error (filtered s) (Z.to_nat j) = Some p /\ (b = true <-> j = cursor s)) /\
  (filtered s <> [] -> exists p, In (p, cursor s, true) rows).
Proof using.
  intros ops d s. assert (K : sel_ok s) by (apply ssteps_ok, new_sel_ok). pose proof (adjusted_eq s K) as A1. destruct K as [K1 K2 K3 K4 K5].
  unfold render_visible. unfold nfilt. destruct (filtered s) as [|x r] eqn:F.
  - exists []. cbn [length Z.of_nat]. change (0 =? 0) with true. cbn iota. split; auto. split; [unfold first_row; cbn in K2; lia|]. split; [|congruence].
    intros i p j b E. destruct i; discriminate.
  - rewrite <- F in *. assert (L : cursor s < Z.of_nat (length (filtered s))) by (destruct K2 as [_ [K2|[K2 _]]]; [auto|congruence]).
    replace (_ =? 0) with false by lia. cbv zeta. rewrite A1. set (n := Z.of_nat (length (filtered s))) in *.
    set (e := if n <? first_row s + height s then n else first_row s + height s).
    assert (E : e = Z.min n (first_row s + height s)) by (subst e; destruct (_ <? _) eqn:?; lia).
    assert (FR : 0 <= first_row s <= cursor s /\ cursor s < first_row s + height s) by (unfold first_row; lia).
    replace (_ || _) with false by lia. eexists. split; [reflexivity|]. split; [rewrite map_length, seq_length; lia|]. split.
    + intros i p j b H. rewrite nth_error_map in H. destruct (nth_error (seq 0 (Z.to_nat (e - first_row s))) i) as [q|] eqn:Q; [|discriminate].
      assert (Hi : (i < Z.to_nat (e - first_row s))%nat) by (rewrite <- (seq_length (Z.to_nat (e - first_row s)) 0); apply nth_error_Some; congruence).
      assert (q = i) by (apply nth_error_nth with (d := 0%nat) in Q; rewrite seq_nth in Q; lia). subst q. cbn [option_map] in H. cbv zeta in H.
      apply some_inj in H. pose proof (f_equal snd H) as H3. pose proof (f_equal (fun t => snd (fst t)) H) as H2. pose proof (f_equal (fun t => fst (fst t)) H) as H1. cbn [fst snd] in *.
      subst p j b. split; auto. split; [apply nth_error_nth'; subst n; lia|]. lia.
    + intros _. exists (nth (Z.to_nat (cursor s)) (filtered s) 0). apply in_map_iff. exists (Z.to_nat (cursor s - first_row s)). split; [|apply in_seq; lia].
      cbv zeta. replace (first_row s + Z.of_nat (Z.to_nat (cursor s - first_row s))) with (cursor s) by lia. now rewrite Z.eqb_refl.
Qed.
(** Enter confirms the option under the cursor; with nothing shown it confirms the earlier choice, if any. *)
Theorem C35_enter_confirms_focused : forall ops d, let u := ssteps heap ops (@new_sui A d) in
  snd (handle_key heap u (plain KEnter)) =
    CConfirm (match focused_value heap (dom u) with Some v => Some v | None => selected_value heap (dom u) end) /\
  selected_value heap (dom (sstep heap u (SKey (plain KEnter)))) =
    match focused_value heap (dom u) with Some v => Some v | None => selected_value heap (dom u) end /\
  filtered (dom (sstep heap u (SKey (plain KEnter)))) = filtered (dom u) /\ cursor (dom (sstep heap u (SKey (plain KEnter)))) = cursor (dom u).
Proof using.
  intros ops d u. assert (K : sel_ok (dom u)) by (apply ssteps_ok, new_sel_ok).
  assert (V : selected_value heap (choose (dom u)) = match focused_value heap (dom u) with Some v => Some v | None => selected_value heap (dom u) end).
  { unfold choose, focused_value. destruct (at_ (filtered (dom u)) (cursor (dom u))) as [p|] eqn:E; auto.
    apply at_some in E as (_ & _ & I). apply (so_sub _ K) in I. destruct (index_of_spec p _ I) as (i & E1 & E2). rewrite E1.
    unfold selected_value. cbn [options chosen]. now rewrite E2. }
  unfold handle_key. cbn [sstep]. unfold handle_key. change (action_of (plain KEnter)) with ASelect. cbv iota zeta. cbn [fst snd dom]. rewrite V. split; auto. split; auto.
  unfold choose. destruct (at_ _ _); auto. destruct (index_of _ _); auto.
Qed.
(** Only Enter changes the choice: moving, typing, clearing the filter, changing height or filter keep it, and no other
    key confirms anything. *)
Definition not_enter (o : sop A) : Prop := match o with SKey k => ktype k <> KEnter | SOptions _ _ => False | _ => True end.
Lemma query_sel (s : sel A) q : selected_value heap (set_query heap s q) = selected_value heap s. Proof using. reflexivity. Qed.
Theorem C35_only_enter_selects : forall ops (u : sui A), Forall not_enter ops ->
  selected_value heap (dom (ssteps heap ops u)) = selected_value heap (dom u).
Proof using.
  induction ops as [|o ops IH]; intros u F; [reflexivity|]. inversion F as [|? ? N F']; subst. cbn [ssteps fold_left]. change (selected_value heap (dom (ssteps heap ops (sstep heap u o))) = selected_value heap (dom u)).
  rewrite (IH _ F'). destruct o as [k|h|f|b|os dd]; try contradiction; try reflexivity. cbn [not_enter] in N.
  cbn [sstep]. unfold handle_key, action_of. destruct k as [kt r ka kc ks]; cbn [ktype krune] in *. destruct kt; try congruence; cbn [fst dom]; auto;
    try (unfold filter_input; cbn [ktype]; destruct (filterable u); auto; destruct (query (dom u)); auto; fail).
  repeat match goal with |- context [if ?b =? ?c then _ else _] => destruct (b =? c) end; cbn [fst dom]; auto.
  unfold filter_input; cbn [ktype]; destruct (filterable u); auto.
Qed.
Theorem C35_only_enter_confirms : forall (u : sui A) k v, snd (handle_key heap u k) = CConfirm v -> ktype k = KEnter.
Proof using.
  intros u k v. unfold handle_key, action_of. destruct (ktype k) eqn:E; cbn [snd]; try discriminate; auto.
  repeat match goal with |- context [if ?b =? ?c then _ else _] => destruct (b =? c) end; cbn [snd]; discriminate.
Qed.

(* ---------- C36 ---------- *)
(** The limits last asked for. *)
Definition asked_max (ops : list (mop A)) : Z := fold_left (fun m o => match o with MMax n => Z.max 0 n | _ => m end) ops 0.
Definition asked_min (ops : list (mop A)) : Z := fold_left (fun m o => match o with MMin n => Z.max 0 n | _ => m end) ops 0.
(** A minimum above the maximum is lowered to the maximum. *)
Definition effective_min (mi ma : Z) : Z := if (0 <? ma) && (ma <? mi) then ma else mi.
Lemma with_selected_lim l : forall n, mn (with_selected n l) = mn n /\ mx (with_selected n l) = mx n.
Proof using. induction l as [|i l IH]; intros n; [auto|]. change (with_selected n (i :: l)) with (with_selected (add_one n i) l). destruct (IH (add_one n i)) as [-> ->]. unfold add_one. destruct (_ && _); auto. Qed.
Lemma toggle_lim n i : mn (toggle_idx n i) = mn n /\ mx (toggle_idx n i) = mx n.
Proof using. unfold toggle_idx. destruct (i <? 0); auto. destruct (mem i (idx n)); auto. destruct (can_select n); auto. Qed.
Lemma sel_step_lim l : forall n, mn (fold_left sel_step l n) = mn n /\ mx (fold_left sel_step l n) = mx n.
Proof using. induction l as [|i l IH]; intros n; [auto|]. cbn [fold_left]. destruct (IH (sel_step n i)) as [-> ->]. unfold sel_step. destruct (_ && _); auto using toggle_lim. Qed.
Definition lim_ok (u : mui A) : Prop := 0 <= umin u /\ 0 <= umax u /\ mx (picked (mdom u)) = umax u /\ mn (picked (mdom u)) = effective_min (umin u) (umax u).
Lemma new_selection_lim mi ma : 0 <= mi -> 0 <= ma -> mx (new_selection mi ma) = ma /\ mn (new_selection mi ma) = effective_min mi ma.
Proof using. clear heap. intros H1 H2. unfold new_selection, effective_min. cbn [mx mn]. replace (mi <? 0) with false by lia. replace (ma <? 0) with false by lia. auto. Qed.
Lemma mstep_lim (u : mui A) o : lim_ok u -> lim_ok (mstep heap u o) /\
  umin (mstep heap u o) = match o with MMin n => Z.max 0 n | _ => umin u end /\ umax (mstep heap u o) = match o with MMax n => Z.max 0 n | _ => umax u end.
Proof using.
  intros (L1 & L2 & L3 & L4). assert (Mx : forall n, (if n <? 0 then 0 else n) = Z.max 0 n) by (intros n; destruct (n <? 0) eqn:E; lia).
  destruct o as [k|h|f|b|l|n|n|os dd]; cbn [mstep]; cbv zeta; rewrite ?Mx; unfold lim_ok; cbn [put mdom umin umax picked on_base]; try (repeat split; auto; fail).
  - assert (I : forall v, v = u \/ (exists f, v = put u (on_base (mdom u) f)) -> (0 <= umin v /\ 0 <= umax v /\ mx (picked (mdom v)) = umax v /\ mn (picked (mdom v)) = effective_min (umin v) (umax v)) /\ umin v = umin u /\ umax v = umax u).
    { intros v [->|(f & ->)]; cbn [put mdom umin umax picked on_base]; repeat split; auto. }
    assert (J : mfilter_input heap u k = u \/ exists f, mfilter_input heap u k = put u (on_base (mdom u) f)).
    { unfold mfilter_input. destruct (mfilterable u); auto. destruct (ktype k); auto; [eauto|]. destruct (query (base (mdom u))); eauto. }
    unfold mhandle_key. destruct (maction_of k) as [[]| | | | |]; cbn [fst]; auto; try (apply I; eauto; fail).
    + unfold toggle. destruct (at_ _ _) as [p|]; cbn [put mdom umin umax picked]; [|auto]. destruct (index_of p _) as [i|]; cbn [picked]; [|auto].
      destruct (toggle_lim (picked (mdom u)) i) as [-> ->]. auto.
    + cbn [put mdom umin umax]. unfold select_all. cbn [picked]. destruct (sel_step_lim (somes (map (fun p => index_of p (options (base (mdom u)))) (filtered (base (mdom u))))) (picked (mdom u))) as [-> ->]. auto.
    + destruct (can_confirm _); cbn [fst]; auto.
  - destruct (with_selected_lim l (picked (mdom u))) as [-> ->]. auto.
  - unfold with_constraints. cbn [picked]. destruct (with_selected_lim (indices (picked (mdom u))) (new_selection (Z.max 0 n) (umax u))) as [-> ->].
    destruct (new_selection_lim (Z.max 0 n) (umax u) ltac:(lia) L2) as [-> ->]. repeat split; auto; lia.
  - unfold with_constraints. cbn [picked]. destruct (with_selected_lim (indices (picked (mdom u))) (new_selection (umin u) (Z.max 0 n))) as [-> ->].
    destruct (new_selection_lim (umin u) (Z.max 0 n) L1 ltac:(lia)) as [-> ->]. repeat split; auto; lia.
  - destruct (new_selection_lim (umin u) (umax u)) as [-> ->]; auto.
Qed.
Lemma msteps_lim ops : forall u : mui A, lim_ok u -> lim_ok (msteps heap ops u) /\
  umin (msteps heap ops u) = fold_left (fun m o => match o with MMin n => Z.max 0 n | _ => m end) ops (umin u) /\
  umax (msteps heap ops u) = fold_left (fun m o => match o with MMax n => Z.max 0 n | _ => m end) ops (umax u).
Proof using.
  induction ops as [|o ops IH]; intros u L; [auto|]. destruct (mstep_lim u o L) as (L' & E1 & E2). cbn [msteps fold_left].
  destruct (IH _ L') as (L2 & F1 & F2). split; auto. now rewrite <- E1, <- E2.
Qed.

(** Whatever is pressed or called: the selected indices are distinct, increasing, and never more than the maximum last asked
    for (0 or less: no maximum). *)
Theorem C36_never_more_than_max : forall ops d, let u := msteps heap ops (@new_mui A d) in
  StronglySorted Z.lt (indices (picked (mdom u))) /\
  (0 < asked_max ops -> Z.of_nat (length (indices (picked (mdom u)))) <= asked_max ops).
Proof using.
  intros ops d u. assert (K : msel_ok (mdom u)) by (apply msteps_ok, new_mok).
  destruct (msteps_lim ops (@new_mui A d)) as ((L1 & L2 & L3 & L4) & E1 & E2); [cbv; intuition congruence|]. fold u in L3, E2. split; [apply indices_sorted, K|].
  rewrite <- (Permutation_length (indices_perm _)). change (umax (new_mui d)) with 0 in E2. unfold asked_max. rewrite <- E2, <- L3. apply K.
Qed.
(** Enter, and only Enter, confirms, exactly when at least the (effective) minimum is selected, and changes nothing. *)
Theorem C36_confirm_needs_min : forall ops d k, let u := msteps heap ops (@new_mui A d) in
  (snd (mhandle_key heap u k) = MConfirm (selected_values heap (mdom u)) /\ mstep heap u (MKey k) = u /\ ktype k = KEnter /\
     effective_min (asked_min ops) (asked_max ops) <= Z.of_nat (length (indices (picked (mdom u))))) \/
  ((forall vs, snd (mhandle_key heap u k) <> MConfirm vs) /\
     (ktype k = KEnter -> Z.of_nat (length (indices (picked (mdom u)))) < effective_min (asked_min ops) (asked_max ops))).
Proof using.
  intros ops d k u. destruct (msteps_lim ops (@new_mui A d)) as ((L1 & L2 & L3 & L4) & E1 & E2); [cbv; intuition congruence|]. fold u in L3, L4, E1, E2.
  change (umax (new_mui d)) with 0 in E2. change (umin (new_mui d)) with 0 in E1. fold (asked_max ops) in E2. fold (asked_min ops) in E1. rewrite E1, E2 in L4.
  rewrite <- (Permutation_length (indices_perm (picked (mdom u)))). rewrite <- L4. fold (cnt (picked (mdom u))).
  destruct (keytype_dec (ktype k) KEnter) as [E|N].
  - cbn [mstep]. unfold mhandle_key, maction_of. rewrite E. destruct (can_confirm (picked (mdom u))) eqn:C; unfold can_confirm in C; [left; cbn [fst snd]; repeat split; auto; lia|].
    right. split; [intros vs; cbn; discriminate|]. intros _. lia.
  - right. split; [|congruence]. intros vs. unfold mhandle_key, maction_of. destruct (ktype k) eqn:E; cbn [snd]; try discriminate; try congruence.
    repeat match goal with |- context [if ?b =? ?c then _ else _] => destruct (b =? c) end; cbn [snd]; discriminate.
Qed.
(** Space: only the option under the cursor changes; it is deselected if it was selected and selected if there is room. *)
Definition room (u : mui A) : Prop := mx (picked (mdom u)) = 0 \/ Z.of_nat (length (indices (picked (mdom u)))) < mx (picked (mdom u)).
Theorem C36_space_toggles_focused_only : forall ops d, let u := msteps heap ops (@new_mui A d) in let u' := mstep heap u (MKey (plain KSpace)) in
  base (mdom u') = base (mdom u) /\
  match focused_value heap (base (mdom u)) with
  | None => u' = u
  | Some v => exists i, (exists p, at_ (options (base (mdom u))) i = Some p /\ at_ (filtered (base (mdom u))) (cursor (base (mdom u))) = Some p /\ heap p = v) /\
      (forall j, j <> i -> (In j (indices (picked (mdom u'))) <-> In j (indices (picked (mdom u))))) /\
      (In i (indices (picked (mdom u'))) <-> ~ In i (indices (picked (mdom u))) /\ room u)
  end.
Proof using.
  intros ops d u u'. assert (K : msel_ok (mdom u)) by (apply msteps_ok, new_mok). subst u'. cbn [mstep]. unfold mhandle_key. change (maction_of (plain KSpace)) with BToggle. cbv iota zeta. cbn [fst put mdom].
  assert (MI : forall n j, In j (indices n) <-> mem j (idx n) = true) by (intros n j; rewrite mem_in; split; apply Permutation_in; [symmetry|]; apply indices_perm).
  unfold focused_value, toggle. destruct (at_ (filtered (base (mdom u))) (cursor (base (mdom u)))) as [p|] eqn:E; [|split; auto; destruct u as [m f a b]; cbn; reflexivity].
  apply at_some in E as (_ & _ & I). apply (so_sub _ (mo_base _ K)) in I. destruct (index_of_spec p _ I) as (i & E1 & E2). rewrite E1. cbn [base picked]. split; auto.
  exists i. split; [exists p; auto|]. destruct (at_some _ _ _ E2) as (B & _). split.
  - intros j N. rewrite !MI, toggle_mem by lia. replace (j =? i) with false by lia. tauto.
  - rewrite !MI, toggle_mem by lia. rewrite Z.eqb_refl. unfold room. rewrite <- (Permutation_length (indices_perm _)). fold (cnt (picked (mdom u))). unfold can_select.
    destruct (mem i (idx (picked (mdom u)))); [intuition congruence|]. rewrite orb_true_iff, Z.eqb_eq, Z.ltb_lt. intuition congruence.
Qed.
(** Moving, filtering, Escape, resizing keep the selection. *)
Definition keeps (o : mop A) : Prop :=
  match o with
  | MKey k => ktype k <> KSpace /\ ~ (ktype k = KRune /\ (krune k = 97 \/ krune k = 110))
  | MHeight _ | MFilterFn _ | MFilterable _ => True
  | _ => False
  end.
Theorem C36_filtering_keeps_selection : forall ops (u : mui A), Forall keeps ops -> indices (picked (mdom (msteps heap ops u))) = indices (picked (mdom u)).
Proof using.
  induction ops as [|o ops IH]; intros u F; [reflexivity|]. inversion F as [|? ? N F']; subst. change (msteps heap (o :: ops) u) with (msteps heap ops (mstep heap u o)).
  rewrite (IH _ F'). destruct o as [k|h|f|b|l|n|n|os dd]; try contradiction; try reflexivity. destruct N as [N1 N2]. cbn [mstep].
  assert (J : picked (mdom (mfilter_input heap u k)) = picked (mdom u)).
  { unfold mfilter_input. destruct (mfilterable u); auto. destruct (ktype k); auto. destruct (query (base (mdom u))); auto. }
  unfold mhandle_key, maction_of. destruct (ktype k) eqn:E; cbn [fst]; try congruence; auto; try (now rewrite J).
  - destruct (krune k =? 107); [reflexivity|]. destruct (krune k =? 106); [reflexivity|]. destruct (krune k =? 103); [reflexivity|]. destruct (krune k =? 71); [reflexivity|].
    replace (krune k =? 97) with false by (symmetry; apply Z.eqb_neq; intros Q; apply N2; auto). replace (krune k =? 110) with false by (symmetry; apply Z.eqb_neq; intros Q; apply N2; auto). cbn [fst]. now rewrite J.
  - destruct (can_confirm _); auto.
Qed.
(** 'a' without a maximum adds exactly the shown options to the selection; 'n' empties it. *)
Theorem C36_all_and_none : forall ops d, let u := msteps heap ops (@new_mui A d) in
  indices (picked (mdom (mstep heap u (MKey (rune_key 110))))) = [] /\
  (mx (picked (mdom u)) = 0 -> forall j, In j (indices (picked (mdom (mstep heap u (MKey (rune_key 97)))))) <->
     In j (indices (picked (mdom u))) \/ exists p, In p (filtered (base (mdom u))) /\ index_of p (options (base (mdom u))) = Some j).
Proof using.
  intros ops d u. split; [reflexivity|]. intros H j. change (picked (mdom (mstep heap u (MKey (rune_key 97))))) with (fold_left sel_step (somes (map (fun p => index_of p (options (base (mdom u)))) (filtered (base (mdom u))))) (picked (mdom u))).
  assert (MI : forall n j, In j (indices n) <-> mem j (idx n) = true) by (intros n i; rewrite mem_in; split; apply Permutation_in; [symmetry|]; apply indices_perm).
  rewrite !MI. revert H. generalize (picked (mdom u)). generalize (options (base (mdom u))) as os. induction (filtered (base (mdom u))) as [|p r IH]; intros os n H; cbn [map somes fold_left].
  - split; [auto|intros [I|(p & [] & _)]; auto].
  - destruct (index_of p os) as [i|] eqn:E; cbn [somes fold_left].
    + assert (B : 0 <= i) by (apply index_of_some, at_some in E; lia).
      assert (S1 : mx (sel_step n i) = 0 /\ (mem j (idx (sel_step n i)) = true <-> mem j (idx n) = true \/ j = i)).
      { unfold sel_step, can_select. rewrite H. change (0 =? 0) with true. cbn [orb]. rewrite andb_true_r. destruct (mem i (idx n)) eqn:M; cbn [negb].
        - split; auto. split; auto. intros [I| ->]; auto.
        - split; [rewrite (proj2 (toggle_lim n i)); auto|]. rewrite toggle_mem by lia. rewrite M. unfold can_select. rewrite H. destruct (Z.eqb_spec j i) as [->|N]; cbn; intuition congruence. }
      destruct S1 as [S1 S2]. rewrite (IH _ _ S1), S2. split.
      * intros [[I| ->]|(q & I & Q)]; [auto|right; exists p; split; [left; auto|auto]|right; exists q; split; [right; auto|auto]].
      * intros [I|(q & [<-|I] & Q)]; [auto|left; right; congruence|right; eauto].
    + rewrite (IH _ _ H). split; [intros [I|(q & I & Q)]; [auto|right; exists q; split; [right|]; auto]|intros [I|(q & [<-|I] & Q)]; [auto|congruence|right; eauto]].
Qed.

(* ---------- C75 ---------- *)
Fixpoint type_text (cs : list Z) : list (sop A) := match cs with [] => [] | c :: r => SKey (rune_key c) :: type_text r end.
(** Typing unbound characters narrows to exactly the options matching all the text typed so far, in their order. *)
Theorem C75_typing_narrows : forall cs (u : sui A), filterable u = true -> Forall free_char cs -> cs <> [] ->
  let s := dom (ssteps heap (type_text cs) u) in
  query s = query (dom u) ++ concat (map enc_rune cs) /\
  filtered s = filter (fun p => filt (dom u) (heap p) (query s)) (options (dom u)).
Proof using.
  assert (G : forall c (u : sui A), filterable u = true -> free_char c -> sstep heap u (SKey (rune_key c)) = SU (set_query heap (dom u) (query (dom u) ++ enc_rune c)) (filterable u)).
  { intros c u F (N1 & N2 & N3 & N4). cbn [sstep]. unfold handle_key, action_of. cbn [ktype krune rune_key]. apply Z.eqb_neq in N1, N2, N3, N4. rewrite N1, N2, N3, N4.
    unfold filter_input. rewrite F. reflexivity. }
  induction cs as [|c cs IH]; intros u F Fr Ne; [congruence|]. inversion Fr as [|? ? N Fr']; subst. cbv zeta. cbn [type_text]. change (ssteps heap (SKey (rune_key c) :: type_text cs) u) with (ssteps heap (type_text cs) (sstep heap u (SKey (rune_key c)))).
  rewrite (G c u F N). destruct cs as [|c2 cs].
  - cbn [type_text ssteps fold_left map concat dom]. unfold set_query. cbv zeta. cbn [query filtered]. rewrite app_nil_r. auto.
  - destruct (IH (SU (set_query heap (dom u) (query (dom u) ++ enc_rune c)) (filterable u))) as [I1 I2]; auto; [discriminate|]. split.
    + rewrite I1. cbn [dom]. unfold set_query at 1. cbv zeta. cbn [query map concat]. now rewrite <- app_assoc.
    + rewrite I2. reflexivity.
Qed.
(** Backspace takes back the last character typed if it was ASCII, and Escape shows all options matching the empty query. *)
Theorem C75_backspace : forall (u : sui A) c, filterable u = true -> free_char c -> 0 <= c < 128 ->
  query (dom (sstep heap (sstep heap u (SKey (rune_key c))) (SKey (plain KBackspace)))) = query (dom u) /\
  query (dom (sstep heap u (SKey (plain KEsc)))) = [].
Proof using.
  intros u c F (N1 & N2 & N3 & N4) B. split; [|reflexivity]. cbn [sstep]. unfold handle_key at 2. unfold action_of. cbn [ktype krune rune_key]. apply Z.eqb_neq in N1, N2, N3, N4. rewrite N1, N2, N3, N4. cbn [fst].
  unfold filter_input. rewrite F. cbn [ktype rune_key krune]. unfold handle_key. change (action_of (plain KBackspace)) with ANone. cbv iota zeta. cbn [fst]. unfold filter_input. cbn [filterable ktype plain dom].
  replace (enc_rune c) with [c]; [|unfold enc_rune; repeat match goal with |- context [if ?b then _ else _] => destruct b eqn:? end; auto; lia].
  assert (Q : query (set_query heap (dom u) (query (dom u) ++ [c])) = query (dom u) ++ [c]) by reflexivity. rewrite Q.
  destruct (query (dom u) ++ [c]) eqn:E; [destruct (query (dom u)); discriminate|]. rewrite <- E. cbn [dom]. change (removelast (query (dom u) ++ [c]) = query (dom u)). apply removelast_last.
Qed.

(* ---------- C77 ---------- *)
(** As long as preselected indices are not given out of range, confirming returns at least the minimum number of options. *)
Definition no_preset (o : mop A) : Prop := match o with MSelected _ => False | _ => True end.
Definition in_rng (u : mui A) : Prop := Forall (fun i => 0 <= i < Z.of_nat (length (options (base (mdom u))))) (idx (picked (mdom u))).
Lemma with_selected_sub l : forall n x, In x (idx (with_selected n l)) -> In x (idx n) \/ In x l.
Proof using.
  induction l as [|i l IH]; intros n x I; [auto|]. cbn [with_selected fold_left] in I. apply IH in I as [I|I]; [|right; right; auto]. unfold add_one in I. destruct (_ && _); auto. cbn [idx] in I. destruct (mem i (idx n)); auto.
  destruct I as [<-|I]; auto. right; left; auto.
Qed.
Lemma toggle_sub n i x : In x (idx (toggle_idx n i)) -> x = i \/ In x (idx n).
Proof using. clear heap. unfold toggle_idx. destruct (i <? 0); auto. destruct (mem i (idx n)); cbn [idx]; [intros I; apply filter_In in I; tauto|]. destruct (can_select n); auto. intros [<-|I]; auto. Qed.
Lemma sel_step_sub l : forall n x, In x (idx (fold_left sel_step l n)) -> In x (idx n) \/ In x l.
Proof using. induction l as [|i l IH]; intros n x I; [auto|]. cbn [fold_left] in I. apply IH in I as [I|I]; [|right; right; auto]. unfold sel_step in I. destruct (_ && _); auto. apply toggle_sub in I as [->|I]; auto. right; left; auto. Qed.
Lemma somes_in {B} (l : list (option B)) x : In x (somes l) -> In (Some x) l.
Proof using. induction l as [|[y|] l IH]; cbn; auto. intros [->|I]; auto. Qed.
Lemma rng_step (u : mui A) o : no_preset o -> in_rng u -> in_rng (mstep heap u o).
Proof using.
  intros N R. unfold in_rng in *. destruct o as [k|h|f|b|l|n|n|os dd]; try contradiction; cbn [mstep]; cbv zeta; cbn [put mdom base picked on_base]; auto.
  - assert (J : picked (mdom (mfilter_input heap u k)) = picked (mdom u) /\ options (base (mdom (mfilter_input heap u k))) = options (base (mdom u))).
    { unfold mfilter_input. destruct (mfilterable u); auto. destruct (ktype k); auto. destruct (query (base (mdom u))); auto. }
    unfold mhandle_key. destruct (maction_of k) as [[]| | | | |]; cbn [fst]; auto; try (destruct J as [-> ->]; auto; fail).
    + cbn [put mdom]. unfold toggle. destruct (at_ _ _) as [p|]; auto. destruct (index_of p _) as [i|] eqn:E; auto. cbn [base picked]. apply index_of_some, at_some in E as (B & _).
      rewrite Forall_forall in *. intros x I. apply toggle_sub in I as [->|I]; auto.
    + cbn [put mdom]. unfold select_all. cbn [base picked]. rewrite Forall_forall in *. intros x I. apply sel_step_sub in I as [I|I]; auto.
      apply somes_in, in_map_iff in I as (p & E & _). apply index_of_some, at_some in E. tauto.
    + cbn [put mdom select_none picked clear_idx idx]. constructor.
    + destruct (can_confirm _); auto.
  - unfold with_constraints. cbn [base picked]. rewrite Forall_forall in *. intros x I. apply with_selected_sub in I as [[]|I]. apply R. rewrite indices_perm. auto.
  - unfold with_constraints. cbn [base picked]. rewrite Forall_forall in *. intros x I. apply with_selected_sub in I as [[]|I]. apply R. rewrite indices_perm. auto.
  - constructor.
Qed.
Lemma rng_steps ops : forall u : mui A, Forall no_preset ops -> in_rng u -> in_rng (msteps heap ops u).
Proof using. induction ops as [|o ops IH]; intros u F R; [exact R|]. inversion F; subst. cbn [msteps fold_left]. apply IH; auto. now apply rng_step. Qed.
Theorem C77_values_match_count : forall ops d, Forall no_preset ops -> let u := msteps heap ops (@new_mui A d) in
  length (selected_values heap (mdom u)) = length (indices (picked (mdom u))) /\
  (forall n v, nth_error (selected_values heap (mdom u)) n = Some v -> exists i p, nth_error (indices (picked (mdom u))) n = Some i /\ at_ (options (base (mdom u))) i = Some p /\ v = heap p).
Proof using.
  intros ops d F u. assert (R : in_rng u) by (apply rng_steps; [auto|constructor]). unfold in_rng in R.
  assert (R' : Forall (fun i => 0 <= i < Z.of_nat (length (options (base (mdom u))))) (indices (picked (mdom u)))) by (now rewrite <- indices_perm).
  unfold selected_values. induction R' as [|i l B _ [IH1 IH2]]; [split; auto; intros [|n] v; discriminate|]. cbn [map]. destruct (at_in _ _ B) as (p & E & _). rewrite E. cbn [somes map length]. split; [now f_equal|].
  intros [|n] v H; cbn [nth_error] in H |- *; [|auto]. apply some_inj in H. subst v. eauto.
Qed.
End Props.

(* ---------- concrete cases, C74, C76 and the refutations ---------- *)
(** Options: label and disabled flag; the default filter (substring) as "contains every character" suffices here. *)
Record opt := Opt { label : list Z; disabled : bool }.
Definition has_all (o : opt) (q : list Z) : bool := forallb (fun c => existsb (Z.eqb c) (label o)) q.
Definition hp (i : Z) : opt := if i =? 1 then Opt [98] true else if i =? 2 then Opt [99; 228] false else Opt [98; 99] false.
Example C35_ex : let u := ssteps hp [SOptions [0; 1; 2] has_all; SHeight 2; SFilterable true; SKey (rune_key 99); SKey (plain KEnd)] (new_sui has_all) in
  filtered (dom u) = [0; 2] /\ cursor (dom u) = 1 /\ render_visible (dom u) = Some [(0, 0, false); (2, 1, true)] /\ focused_value hp (dom u) = Some (Opt [99; 228] false).
Proof using. repeat split; reflexivity. Qed.
Example C36_ex : let u := msteps hp [MOptions [0; 1; 2] has_all; MMin 1; MMax 2; MKey (plain KSpace); MKey (plain KEnd); MKey (plain KSpace); MKey (plain KUp); MKey (plain KSpace)] (new_mui has_all) in
  indices (picked (mdom u)) = [0; 2] /\ snd (mhandle_key hp u (plain KEnter)) = MConfirm [Opt [98; 99] false; Opt [99; 228] false].
Proof using. repeat split; reflexivity. Qed.
(** Disabled options are focused, confirmed and toggled like all others. *)
Theorem C74_disabled_option_confirmed_refuted :
  let u := ssteps hp [SOptions [0; 1; 2] has_all; SKey (plain KDown)] (new_sui has_all) in
  exists o, snd (handle_key hp u (plain KEnter)) = CConfirm (Some o) /\ disabled o = true.
Proof using. eexists. split; reflexivity. Qed.
Theorem C74_disabled_option_toggled_refuted :
  let u := msteps hp [MOptions [0; 1; 2] has_all; MKey (plain KDown); MKey (plain KSpace)] (new_mui has_all) in
  exists o, snd (mhandle_key hp u (plain KEnter)) = MConfirm [o] /\ disabled o = true.
Proof using. eexists. split; reflexivity. Qed.
(** Backspace removes one byte: of a two-byte character one byte stays in the query. *)
Theorem C171_backspace_multibyte_refuted :
  let u := ssteps hp [SOptions [0; 1; 2] has_all; SFilterable true; SKey (rune_key 228); SKey (plain KBackspace)] (new_sui has_all) in query (dom u) = [195].
Proof using. reflexivity. Qed.
(** Bound letters move the cursor instead of being typed. *)
Theorem C171_bound_letters_refuted : forall c, c = 107 \/ c = 106 \/ c = 103 \/ c = 71 ->
  query (dom (ssteps hp [SOptions [0; 1; 2] has_all; SFilterable true; SKey (rune_key c)] (new_sui has_all))) = [].
Proof using. intros c [H|[H|[H|H]]]; subst; reflexivity. Qed.
(** Preselected indices out of range count towards the minimum: with a minimum of 2 nothing at all is confirmed. *)
Theorem C172_preset_out_of_range_refuted :
  let u := msteps hp [MOptions [0] has_all; MMin 2; MSelected [5; 6]] (new_mui has_all) in snd (mhandle_key hp u (plain KEnter)) = MConfirm [].
Proof using. reflexivity. Qed.
Example C77_ex : Forall (@no_preset opt) [MOptions [0; 1; 2] has_all; MMin 1; MKey (plain KSpace)]. Proof using. repeat constructor. Qed.
(** The only key that quits is one the input parser never produces, whatever bytes arrive: Ctrl-C (byte 3) is the letter c with
    the control flag, which a filterable Select types into its query. *)
Lemma parse1_no b k : parse1 b = Some k -> ktype k <> KCtrlC.
Proof using. unfold parse1. repeat (match goal with |- context [if ?b then _ else _] => destruct b end; [intros H; apply some_inj in H; subst; discriminate|]). discriminate. Qed.
Lemma parse_key_no bytes k : parse_key bytes = Some k -> ktype k <> KCtrlC.
Proof using.
  revert bytes. intros d. destruct d as [|b d]; [discriminate|]. destruct d as [|b2 d]; [apply parse1_no|]. cbn [parse_key]. set (dd := b :: b2 :: d). destruct (_ =? 27); [|discriminate].
  assert (O : forall x y, (x = Some k -> ktype k <> KCtrlC) -> (y = Some k -> ktype k <> KCtrlC) -> orelse x y = Some k -> ktype k <> KCtrlC) by (intros [x|] y H1 H2; cbn; auto).
  assert (X : forall (c : bool) x, (x = Some k -> ktype k <> KCtrlC) -> (if c then x else None) = Some k -> ktype k <> KCtrlC) by (intros [] x H; auto; discriminate).
  repeat apply O; apply X; unfold parse_arrow, parse_ss3, parse_tilde, parse_hf;
    repeat (match goal with |- context [if ?b then _ else _] => destruct b end; [intros H; apply some_inj in H; subst; discriminate|]); discriminate.
Qed.
Theorem C76_no_input_yields_the_quit_key_refuted : forall chunks k, In k (delivered chunks) -> ktype k <> KCtrlC.
Proof using.
  intros cs k. unfold delivered. generalize (RS [] cs). generalize (S (length (concat cs))) as f. induction f as [|f IH]; intros s I; [destruct I|].
  cbn [read_all] in I. destruct (read s) as [[[q|] s']|] eqn:R; [|apply (IH _ I)|destruct I]. destruct I as [->|I]; [|apply (IH _ I)].
  unfold read in R. destruct (read_byte s) as [[b s1]|]; [|discriminate]. destruct (if b =? 27 then _ else _) as [sq s2]. destruct (parse_key sq) as [q|] eqn:P.
  - apply some_inj in R. pose proof (f_equal fst R) as R1. cbn in R1. apply some_inj in R1. subst q. apply (parse_key_no _ _ P).
  - destruct (128 <=? b).
    + destruct (read_rune _) as [r s3]. apply some_inj in R. pose proof (f_equal fst R) as R1. cbn in R1. apply some_inj in R1. subst k. discriminate.
    + destruct (_ && _); [|discriminate]. apply some_inj in R. pose proof (f_equal fst R) as R1. cbn in R1. apply some_inj in R1. subst k. discriminate.
Qed.
Theorem C261_select_quits : forall (A : Type) heap (u : sui A) k, snd (handle_key heap u k) = CQuit <-> ktype k = KCtrlC.
Proof using.
  intros A heap u k. unfold handle_key, action_of. destruct (ktype k) eqn:E; cbn [snd]; split; intros H; try discriminate; try congruence; auto.
  repeat match type of H with context [if ?b =? ?c then _ else _] => destruct (b =? c) end; cbn [snd] in H; discriminate.
Qed.
Theorem C261_multiselect_quits : forall (A : Type) heap (u : mui A) k, snd (mhandle_key heap u k) = MQuit <-> ktype k = KCtrlC.
Proof using.
  intros A heap u k. unfold mhandle_key, maction_of. destruct (ktype k) eqn:E; cbn [snd]; split; intros H; try discriminate; try congruence; auto.
  - repeat match type of H with context [if ?b =? ?c then _ else _] => destruct (b =? c) end; cbn [snd] in H; discriminate.
  - destruct (can_confirm _); discriminate.
Qed.
Theorem C76_ctrl_c_types_c_refuted : exists k, parse_key [3] = Some k /\
  let u := ssteps hp [SOptions [0; 1; 2] has_all; SFilterable true] (new_sui has_all) in snd (handle_key hp u k) = CNone /\ query (dom (sstep hp u (SKey k))) = [99].
Proof using. eexists. repeat split; reflexivity. Qed.

Print Assumptions C35_cursor_valid. Print Assumptions C35_window. Print Assumptions C35_enter_confirms_focused. Print Assumptions C35_only_enter_selects.
Print Assumptions C35_only_enter_confirms. Print Assumptions C36_never_more_than_max. Print Assumptions C36_confirm_needs_min. Print Assumptions C36_space_toggles_focused_only.
Print Assumptions C36_filtering_keeps_selection. Print Assumptions C36_all_and_none. Print Assumptions C75_typing_narrows. Print Assumptions C75_backspace.
Print Assumptions C77_values_match_count. Print Assumptions C74_disabled_option_confirmed_refuted. Print Assumptions C74_disabled_option_toggled_refuted. Print Assumptions C171_backspace_multibyte_refuted.
Print Assumptions C171_bound_letters_refuted. Print Assumptions C172_preset_out_of_range_refuted. Print Assumptions C76_no_input_yields_the_quit_key_refuted. Print Assumptions C261_select_quits.
Print Assumptions C261_multiselect_quits. Print Assumptions C76_ctrl_c_types_c_refuted.
