(** C35, C36, C75 continued: keys, calls, limits and views of Select and MultiSelect. *)
From Coq Require Import Sorted Permutation.
From Verif Require Import Prelude Utf8 KeysModel SelModel SelSpec SelProofs SelProps.

Section View.
Context {A : Type}.
Variable heap : Z -> A.

(** Everything but the cursor is as before. *)
Definition only_cursor (s s' : sel A) : Prop :=
  options s' = options s /\ chosen s' = chosen s /\ query s' = query s /\ filtered s' = filtered s /\ height s' = height s /\ filt s' = filt s.
Definition goes (s s' : sel A) (c : Z) : Prop := cursor s' = c /\ only_cursor s s'.
(** The movement keys: one option up or down, to the first, to the last, clamped to the options shown. *)
Definition moves (s : sel A) (after : keymsg -> sel A) : Prop :=
  let n := Z.of_nat (length (filtered s)) in
  Forall (fun k => goes s (after k) (Z.max 0 (cursor s - 1))) [plain KUp; rune_key 107] /\
  Forall (fun k => goes s (after k) (Z.max 0 (Z.min (n - 1) (cursor s + 1)))) [plain KDown; rune_key 106] /\
  Forall (fun k => goes s (after k) 0) [plain KHome; rune_key 103] /\
  Forall (fun k => goes s (after k) (Z.max 0 (n - 1))) [plain KEnd; rune_key 71].
Lemma moves_ok (s : sel A) after : sel_ok s ->
  (forall k, In k [plain KUp; rune_key 107] -> after k = move_up s) -> (forall k, In k [plain KDown; rune_key 106] -> after k = move_down s) ->
  (forall k, In k [plain KHome; rune_key 103] -> after k = to_start s) -> (forall k, In k [plain KEnd; rune_key 71] -> after k = to_end s) -> moves s after.
Proof using. clear heap.
  intros [K1 [K2 K2'] K3 K4 K5] H1 H2 H3 H4. unfold moves. cbv zeta.
  assert (F : forall c, only_cursor s (with_cursor s c)) by (intros c; repeat split).
  assert (N : filtered s = [] -> Z.of_nat (length (filtered s)) = 0) by (intros ->; reflexivity).
  split; [|split; [|split]]; apply Forall_forall; intros k I; unfold goes.
  - rewrite (H1 k I). split; [|apply F]. cbn. destruct (0 <? cursor s) eqn:E; lia.
  - rewrite (H2 k I). split; [|apply F]. cbn. unfold nfilt. destruct K2' as [K2'|[K2' K2'']]; [|specialize (N K2')]; destruct (_ <? _) eqn:E; lia.
  - rewrite (H3 k I). split; [|apply F]. reflexivity.
  - rewrite (H4 k I). split; [|apply F]. cbn. unfold nfilt. destruct (_ <? 0) eqn:E; lia.
Qed.
Ltac each_key := intros k I; cbn [In] in I; decompose [or] I; subst; try contradiction; reflexivity.
Theorem C35_movement_keys : forall ops d, let u := ssteps heap ops (@new_sui A d) in
  moves (dom u) (fun k => dom (sstep heap u (SKey k))) /\ forall k, filterable (sstep heap u (SKey k)) = filterable u.
Proof using.
  intros ops d u. split.
  - apply moves_ok; [apply ssteps_ok, new_sel_ok|each_key..].
  - intros k. cbn [sstep]. unfold handle_key. destruct (action_of k); try reflexivity. cbn [fst]. unfold filter_input. destruct (filterable u) eqn:E; auto. destruct (ktype k); auto. destruct (query (dom u)); auto.
Qed.
(** The calls: what each one changes. New options start afresh, with the default height and filter. *)
Theorem C35_calls : forall (u : sui A) h f b os d, let s := dom u in
  (let u' := sstep heap u (SHeight h) in height (dom u') = Z.max 1 h /\ filterable u' = filterable u /\
     cursor (dom u') = cursor s /\ chosen (dom u') = chosen s /\ query (dom u') = query s /\ filtered (dom u') = filtered s /\ options (dom u') = options s /\ filt (dom u') = filt s) /\
  (let u' := sstep heap u (SFilterFn f) in filt (dom u') = f /\ filterable u' = filterable u /\
     cursor (dom u') = cursor s /\ chosen (dom u') = chosen s /\ query (dom u') = query s /\ filtered (dom u') = filtered s /\ options (dom u') = options s /\ height (dom u') = height s) /\
  sstep heap u (SFilterable b) = SU s b /\
  (let u' := sstep heap u (SOptions os d) in filterable u' = filterable u /\ options (dom u') = os /\ filtered (dom u') = os /\ cursor (dom u') = 0 /\ query (dom u') = [] /\
     height (dom u') = 10 /\ filt (dom u') = d /\ selected_value heap (dom u') = None).
Proof using. intros u h f b os d s. repeat split. cbn. destruct (h <? 1) eqn:E; lia. Qed.
(** Keys that are neither movement, Enter, Escape nor Ctrl-C do nothing in a list that is not filterable; in a filterable one only characters and Backspace do. *)
Theorem C35_other_keys_ignored : forall (u : sui A) k,
  ~ In (ktype k) [KUp; KDown; KHome; KEnd; KEnter; KEsc; KCtrlC] -> ~ (ktype k = KRune /\ ~ free_char (krune k)) ->
  (filterable u = false -> handle_key heap u k = (u, CNone)) /\
  (ktype k <> KRune -> ktype k <> KBackspace -> handle_key heap u k = (u, CNone)).
Proof using.
  intros u k N M. assert (Ea : action_of k = ANone).
  { unfold action_of. destruct (ktype k); try reflexivity; try (exfalso; apply N; cbn; tauto).
    destruct (Z.eqb_spec (krune k) 107) as [E|E1]; [exfalso; apply M; split; auto; intros (Q & _); auto|].
    destruct (Z.eqb_spec (krune k) 106) as [E|E2]; [exfalso; apply M; split; auto; intros (_ & Q & _); auto|].
    destruct (Z.eqb_spec (krune k) 103) as [E|E3]; [exfalso; apply M; split; auto; intros (_ & _ & Q & _); auto|].
    destruct (Z.eqb_spec (krune k) 71) as [E|E4]; [exfalso; apply M; split; auto; intros (_ & _ & _ & Q); auto|]. reflexivity. }
  unfold handle_key. rewrite Ea. unfold filter_input. split.
  - intros ->. reflexivity.
  - intros N1 N2. destruct (filterable u); auto. destruct (ktype k); congruence.
Qed.
(** Whatever changes the query (typing, Backspace, Escape): the options shown are those the filter accepts, in their order, and the cursor stays or moves to the last one. *)
Theorem C75_query_shows_matching : forall (u : sui A) k, let s := dom u in let s' := dom (sstep heap u (SKey k)) in
  query s' <> query s \/ ktype k = KEsc ->
  filtered s' = filter (fun p => filt s (heap p) (query s')) (options s) /\ options s' = options s /\ chosen s' = chosen s /\ height s' = height s /\ filt s' = filt s /\
  cursor s' = Z.max 0 (Z.min (cursor s) (Z.of_nat (length (filtered s')) - 1)).
Proof using.
  intros u k s s' H.
  assert (G : s' = s \/ query s' = query s /\ ktype k <> KEsc \/ exists q, s' = set_query heap s q).
  { unfold s'. cbn [sstep]. unfold handle_key. destruct (action_of k) eqn:E; cbn [fst dom].
    - right. left. split; [reflexivity|]. intros Q. unfold action_of in E. rewrite Q in E. discriminate.
    - right. left. split; [reflexivity|]. intros Q. unfold action_of in E. rewrite Q in E. discriminate.
    - right. left. split; [reflexivity|]. intros Q. unfold action_of in E. rewrite Q in E. discriminate.
    - right. left. split; [reflexivity|]. intros Q. unfold action_of in E. rewrite Q in E. discriminate.
    - right. left. split; [unfold choose; destruct (at_ _ _); auto; destruct (index_of _ _); reflexivity|]. intros Q. unfold action_of in E. rewrite Q in E. discriminate.
    - right. right. eauto.
    - left. reflexivity.
    - unfold filter_input. destruct (filterable u); auto. destruct (ktype k); auto; try (left; reflexivity); try (right; right; eexists; reflexivity; fail). fold s. destruct (query s); [left; reflexivity|]. right; right; eexists; reflexivity. }
  assert (E : exists q, s' = set_query heap s q).
  { destruct G as [G|[[G G']|G]]; auto; [|destruct H; [congruence|contradiction]].
    destruct H as [H|H]; [congruence|]. exists []. unfold s'. cbn [sstep]. unfold handle_key, action_of. rewrite H. reflexivity. }
  destruct E as [q ->]. unfold set_query. cbv zeta. cbn [filtered options chosen height filt cursor query]. repeat split.
  set (n := Z.of_nat (length _)). assert (0 <= n) by lia. destruct (n <=? cursor s) eqn:E; match goal with |- context [if ?b then _ else _] => destruct b eqn:? end; lia.
Qed.

(** Filtering is off until it is asked for: typing then never makes a query. *)
Theorem C75_off_by_default : forall ops (d : A -> list Z -> bool), (forall b, ~ In (SFilterable b) ops) -> query (dom (ssteps heap ops (new_sui d))) = [].
Proof using.
  intros ops d N. assert (G : forall ops u, (forall b, ~ In (SFilterable b) ops) -> filterable u = false -> query (dom u) = [] -> query (dom (ssteps heap ops u)) = []).
  { clear. induction ops as [|o ops IH]; intros u N F Q; [exact Q|]. cbn [ssteps fold_left]. apply IH.
    - intros b I. apply (N b). now right.
    - destruct o as [k|h|f|b|os d]; cbn [sstep]; auto; [|exfalso; apply (N b); now left]. unfold handle_key. destruct (action_of k); cbn [fst filterable]; auto. unfold filter_input. rewrite F. exact F.
    - destruct o as [k|h|f|b|os d]; cbn [sstep dom]; auto. unfold handle_key. destruct (action_of k); cbn [fst dom]; auto; [|unfold filter_input; rewrite F; exact Q].
      unfold choose. destruct (at_ _ _); auto. destruct (index_of _ _); exact Q. }
  apply G; auto.
Qed.

(* ---------- MultiSelect ---------- *)
Lemma reach_ok ops d : sel_ok (base (mdom (msteps heap ops (@new_mui A d)))) /\ sn_ok (picked (mdom (msteps heap ops (@new_mui A d)))).
Proof using. exact (proj1 (mok_iff _) (msteps_ok heap ops _ (new_mok d))). Qed.
Theorem C36_movement_keys : forall ops d, let u := msteps heap ops (@new_mui A d) in
  moves (base (mdom u)) (fun k => base (mdom (mstep heap u (MKey k)))).
Proof using. intros ops d u. apply moves_ok; [apply reach_ok|each_key..]. Qed.
Theorem C36_calls : forall (u : mui A) h f b os d, let s := base (mdom u) in
  (let u' := mstep heap u (MHeight h) in height (base (mdom u')) = Z.max 1 h /\ picked (mdom u') = picked (mdom u) /\ mfilterable u' = mfilterable u /\
     cursor (base (mdom u')) = cursor s /\ query (base (mdom u')) = query s /\ filtered (base (mdom u')) = filtered s /\ options (base (mdom u')) = options s /\ filt (base (mdom u')) = filt s) /\
  (let u' := mstep heap u (MFilterFn f) in filt (base (mdom u')) = f /\ picked (mdom u') = picked (mdom u) /\ mfilterable u' = mfilterable u /\
     cursor (base (mdom u')) = cursor s /\ query (base (mdom u')) = query s /\ filtered (base (mdom u')) = filtered s /\ options (base (mdom u')) = options s /\ height (base (mdom u')) = height s) /\
  (let u' := mstep heap u (MFilterable b) in mfilterable u' = b /\ mdom u' = mdom u) /\
  (let u' := mstep heap u (MOptions os d) in mfilterable u' = mfilterable u /\ options (base (mdom u')) = os /\ filtered (base (mdom u')) = os /\ cursor (base (mdom u')) = 0 /\ query (base (mdom u')) = [] /\
     height (base (mdom u')) = 10 /\ filt (base (mdom u')) = d /\ indices (picked (mdom u')) = []).
Proof using. intros u h f b os d s. repeat split. cbn. destruct (h <? 1) eqn:E; lia. Qed.
(** Filling up: the given indices are added in the order given until the maximum is reached. *)
Definition filled (old added new : list Z) (max : Z) : Prop :=
  exists l1 l2, added = l1 ++ l2 /\ (forall j, In j new <-> In j old \/ (In j l1 /\ 0 <= j)) /\ (l2 = [] \/ (0 < max /\ Z.of_nat (length new) = max)).
Lemma add_filled l : forall n, sn_ok n -> filled (idx n) l (idx (with_selected n l)) (mx n).
Proof using. clear heap.
  induction l as [|i l IH]; intros n K; [exists [], []; split; [reflexivity|]; split; [intros j; cbn; tauto|auto]|].
  cbn [with_selected fold_left]. fold (with_selected (add_one n i) l).
  destruct (can_select n) eqn:C.
  - destruct (IH (add_one n i) (add_ok n i K)) as (l1 & l2 & E & M & F). exists (i :: l1), l2. split; [cbn; congruence|]. split.
    + intros j. rewrite M. unfold add_one. rewrite C, andb_true_r. destruct (0 <=? i) eqn:P; cbn [idx].
      * destruct (mem i (idx n)) eqn:Me; cbn [In]; [apply mem_in in Me|]; intuition (subst; auto; try lia).
      * cbn [In]. intuition (subst; auto; try lia).
    + replace (mx n) with (mx (add_one n i)); auto. unfold add_one. destruct (_ && _); reflexivity.
  - assert (E : forall l n, can_select n = false -> with_selected n l = n).
    { clear. intros l. induction l as [|i l IH]; intros n C; [reflexivity|]. cbn [with_selected fold_left]. fold (with_selected (add_one n i) l). unfold add_one. rewrite C, andb_false_r. apply IH, C. }
    unfold add_one. rewrite C, andb_false_r, E by exact C. exists [], (i :: l). split; [reflexivity|]. split; [intros j; cbn; tauto|]. right.
    destruct K as (_ & _ & K & _). unfold can_select, cnt in C. lia.
Qed.
(** Selected(...) adds the indices given, in order, as far as the maximum allows. *)
Theorem C36_preselection : forall ops d l, let u := msteps heap ops (@new_mui A d) in let u' := mstep heap u (MSelected l) in
  base (mdom u') = base (mdom u) /\ mx (picked (mdom u')) = mx (picked (mdom u)) /\ mn (picked (mdom u')) = mn (picked (mdom u)) /\
  filled (indices (picked (mdom u))) l (indices (picked (mdom u'))) (mx (picked (mdom u))).
Proof using.
  intros ops d l u u'. split; [reflexivity|]. assert (K : sn_ok (picked (mdom u))) by (apply reach_ok).
  destruct (with_selected_lim l (picked (mdom u))) as [L1 L2]. split; [exact L2|]. split; [exact L1|].
  destruct (add_filled l _ K) as (l1 & l2 & E & M & F). exists l1, l2. split; [exact E|]. split.
  - intros j. unfold u'. cbn [mstep put mdom picked]. split; intros I.
    + apply (Permutation_in j (Permutation_sym (indices_perm _))) in I. apply M in I. destruct I as [I|I]; auto. left. apply (Permutation_in j (indices_perm _)), I.
    + apply (Permutation_in j (indices_perm _)). apply M. destruct I as [I|I]; auto. left. apply (Permutation_in j (Permutation_sym (indices_perm _))), I.
  - destruct F as [F|[F1 F2]]; auto. right. split; auto. unfold u'. cbn [mstep put mdom picked]. rewrite <- (Permutation_length (indices_perm _)). exact F2.
Qed.
(** The key a adds the options shown, in order, as far as the maximum allows. *)
Lemma selstep_filled l : forall n, sn_ok n -> Forall (fun i => 0 <= i) l -> filled (idx n) l (idx (fold_left sel_step l n)) (mx n).
Proof using. clear heap.
  induction l as [|i l IH]; intros n K P; [exists [], []; split; [reflexivity|]; split; [intros j; cbn; tauto|auto]|].
  apply Forall_cons_iff in P as [P0 P]. cbn [fold_left].
  destruct (can_select n) eqn:C.
  - assert (K' : sn_ok (sel_step n i)) by (unfold sel_step; destruct (_ && _); auto using toggle_ok).
    destruct (IH (sel_step n i) K' P) as (l1 & l2 & E & M & F). exists (i :: l1), l2. split; [cbn; congruence|]. split.
    + intros j. rewrite M. unfold sel_step. rewrite C, andb_true_r. destruct (mem i (idx n)) eqn:Me; cbn [negb].
      * apply mem_in in Me. cbn [In]. intuition (subst; auto).
      * unfold toggle_idx. replace (i <? 0) with false by lia. rewrite Me, C. cbn [idx In]. intuition (subst; auto).
    + replace (mx n) with (mx (sel_step n i)); auto. unfold sel_step, toggle_idx. destruct (_ && _); auto. destruct (i <? 0); auto. destruct (mem _ _); auto. destruct (can_select n); auto.
  - assert (E : forall l n, can_select n = false -> fold_left sel_step l n = n).
    { clear. intros l. induction l as [|i l IH]; intros n C; [reflexivity|]. cbn [fold_left]. unfold sel_step at 2. rewrite C, andb_false_r. apply IH, C. }
    unfold sel_step at 2. rewrite C, andb_false_r, E by exact C. exists [], (i :: l). split; [reflexivity|]. split; [intros j; cbn; tauto|]. right.
    destruct K as (_ & _ & K & _). unfold can_select, cnt in C. lia.
Qed.
Theorem C36_all_fills_up : forall ops d, let u := msteps heap ops (@new_mui A d) in let u' := mstep heap u (MKey (rune_key 97)) in
  base (mdom u') = base (mdom u) /\
  exists shown, Forall2 (fun p i => at_ (options (base (mdom u))) i = Some p) (filtered (base (mdom u))) shown /\
    filled (indices (picked (mdom u))) shown (indices (picked (mdom u'))) (mx (picked (mdom u))).
Proof using.
  intros ops d u u'. split; [reflexivity|]. assert (K : msel_ok (mdom u)) by apply msteps_ok, new_mok. apply mok_iff in K as [Kb K].
  set (l := somes (map (fun p => index_of p (options (base (mdom u)))) (filtered (base (mdom u))))).
  assert (Fl : Forall2 (fun p i => at_ (options (base (mdom u))) i = Some p) (filtered (base (mdom u))) l).
  { unfold l. destruct Kb as [Ks _ _ _ _]. clear -Ks. induction (filtered (base (mdom u))) as [|p f IH]; cbn [map somes]; [constructor|].
    destruct (index_of_spec p (options (base (mdom u))) (Ks p (or_introl eq_refl))) as (i & E & Ha). rewrite E. constructor; [exact Ha|]. apply IH. intros q I. apply Ks. right. exact I. }
  exists l. split; [exact Fl|].
  assert (P : Forall (fun i => 0 <= i) l).
  { clear -Fl. induction Fl as [|p i f l H F IH]; constructor; auto. apply at_some in H. lia. }
  destruct (selstep_filled l _ K P) as (l1 & l2 & E & M & F). exists l1, l2. split; [exact E|].
  change (picked (mdom u')) with (fold_left sel_step l (picked (mdom u))). split.
  - intros j. split; intros I.
    + apply (Permutation_in j (Permutation_sym (indices_perm _))) in I. apply M in I. destruct I as [I|I]; auto. left. apply (Permutation_in j (indices_perm _)), I.
    + apply (Permutation_in j (indices_perm _)). apply M. destruct I as [I|I]; auto. left. apply (Permutation_in j (Permutation_sym (indices_perm _))), I.
  - destruct F as [F|[F1 F2]]; auto. right. split; auto. rewrite <- (Permutation_length (indices_perm _)). exact F2.
Qed.
(** The key n empties the selection and changes nothing else. *)
Theorem C36_none_keeps_the_rest : forall (u : mui A), let u' := mstep heap u (MKey (rune_key 110)) in
  base (mdom u') = base (mdom u) /\ mx (picked (mdom u')) = mx (picked (mdom u)) /\ mn (picked (mdom u')) = mn (picked (mdom u)).
Proof using. intros u u'. repeat split. Qed.
(** Min and Max keep the selection, except that a smaller maximum keeps the first indices only. *)
Lemma indices_nonneg n : sn_ok n -> Forall (fun i => 0 <= i) (indices n).
Proof using. intros (_ & P & _). rewrite <- (indices_perm n). exact P. Qed.
Lemma sorted_perm_eq (a b : list Z) : StronglySorted Z.lt a -> StronglySorted Z.lt b -> (forall x, In x a <-> In x b) -> a = b.
Proof using. clear heap.
  revert b. induction a as [|x a IH]; intros [|y b] Sa Sb M; auto.
  - exfalso. apply (proj2 (M y)). left; auto.
  - exfalso. apply (proj1 (M x)). left; auto.
  - inversion Sa as [|? ? Sa' Fa]; subst. inversion Sb as [|? ? Sb' Fb]; subst. rewrite Forall_forall in Fa, Fb.
    assert (x = y).
    { destruct (proj1 (M x) (or_introl eq_refl)) as [Q|Q]; auto. destruct (proj2 (M y) (or_introl eq_refl)) as [Q'|Q']; auto. specialize (Fa _ Q'). specialize (Fb _ Q). lia. }
    subst y. f_equal. apply IH; auto. intros z. split; intros I.
    + destruct (proj1 (M z) (or_intror I)) as [Q|Q]; auto. subst z. specialize (Fa _ I). lia.
    + destruct (proj2 (M z) (or_intror I)) as [Q|Q]; auto. subst z. specialize (Fb _ I). lia.
Qed.
Lemma sorted_app_l (R : Z -> Z -> Prop) (a b : list Z) : StronglySorted R (a ++ b) -> StronglySorted R a.
Proof using. clear heap. induction a as [|x a IH]; intros S; [constructor|]. inversion S as [|? ? S' F]; subst. constructor; auto. rewrite Forall_forall in *. intros y I. apply F, in_or_app; auto. Qed.
Lemma reselect mi ma n : sn_ok n -> indices (with_selected (new_selection mi ma) (indices n)) = if 0 <? ma then firstn (Z.to_nat ma) (indices n) else indices n.
Proof using. clear heap.
  intros K. set (w := with_selected (new_selection mi ma) (indices n)).
  assert (Kw : sn_ok w) by (apply with_selected_ok, new_sn_ok).
  destruct (add_filled (indices n) (new_selection mi ma) (new_sn_ok mi ma)) as (l1 & l2 & E & M & F). fold w in M, F.
  assert (Mx : mx (new_selection mi ma) = Z.max 0 ma) by (cbn; destruct (ma <? 0) eqn:Q; lia).
  assert (Sn : StronglySorted Z.lt (indices n)) by (apply indices_sorted; apply K).
  assert (S1 : StronglySorted Z.lt l1) by (rewrite E in Sn; eapply sorted_app_l; eauto).
  assert (E1 : indices w = l1).
  { apply sorted_perm_eq; auto; [apply indices_sorted; apply Kw|]. intros x. split; intros I.
    - apply (Permutation_in x (Permutation_sym (indices_perm _))), M in I. destruct I as [[]|[I _]]; auto.
    - apply (Permutation_in x (indices_perm _)), M. right. split; auto. pose proof (indices_nonneg n K) as P. rewrite E in P. apply Forall_app in P as [P _]. rewrite Forall_forall in P. auto. }
  assert (Lw : length (idx w) = length l1) by (rewrite <- E1; apply Permutation_length, indices_perm).
  destruct Kw as (_ & _ & [_ Kw] & _). assert (Mw : mx w = Z.max 0 ma).
  { unfold w. destruct (with_selected_lim (indices n) (new_selection mi ma)) as [_ ->]. exact Mx. }
  rewrite E1. destruct (0 <? ma) eqn:Pm.
  - assert (Ll : Z.of_nat (length l1) <= ma) by (rewrite <- Lw; lia). destruct F as [->|[F1 F2]].
    + rewrite E, app_nil_r. rewrite firstn_all2 by lia. reflexivity.
    + rewrite E. assert (Q : Z.to_nat ma = length l1) by lia. rewrite Q. rewrite firstn_app, Nat.sub_diag, firstn_all. cbn. now rewrite app_nil_r.
  - destruct F as [->|[F1 F2]]; [now rewrite E, app_nil_r|lia].
Qed.
Theorem C36_limits_keep_selection : forall ops d n, let u := msteps heap ops (@new_mui A d) in
  (let u' := mstep heap u (MMin n) in base (mdom u') = base (mdom u) /\ indices (picked (mdom u')) = indices (picked (mdom u))) /\
  (let u' := mstep heap u (MMax n) in base (mdom u') = base (mdom u) /\
     indices (picked (mdom u')) = if 0 <? n then firstn (Z.to_nat n) (indices (picked (mdom u))) else indices (picked (mdom u))).
Proof using.
  intros ops d n u. assert (K : sn_ok (picked (mdom u))) by (apply reach_ok).
  assert (L : lim_ok u) by (destruct (msteps_lim heap ops (new_mui d)) as (L & _); [|exact L]; repeat split; cbn; lia).
  split; split; try reflexivity; cbn [mstep mdom]; unfold with_constraints; cbn [picked]; rewrite reselect by exact K.
  - destruct (0 <? umax u) eqn:E; auto. apply firstn_all2. rewrite <- (Permutation_length (indices_perm _)).
    destruct K as (_ & _ & [_ K] & _). destruct L as (_ & L2 & L3 & _). lia.
  - destruct (n <? 0) eqn:E; [replace (0 <? 0) with false by lia; replace (0 <? n) with false by lia|]; reflexivity.
Qed.
(** The values returned: those at the selected indices, in list order. *)
Theorem C36_selected_values : forall (u : mui A),
  selected_values heap (mdom u) = map heap (concat (map (fun i => match at_ (options (base (mdom u))) i with Some p => [p] | None => [] end) (indices (picked (mdom u))))).
Proof using. intros u. unfold selected_values. f_equal. induction (indices (picked (mdom u))) as [|i l IH]; [reflexivity|]. cbn [map somes concat]. destruct (at_ _ i); cbn [app]; now rewrite IH. Qed.
(** The query in MultiSelect: as in Select. *)
Theorem C75_multiselect_query : forall (u : mui A) k, let s := base (mdom u) in let s' := base (mdom (mstep heap u (MKey k))) in
  query s' <> query s \/ ktype k = KEsc ->
  filtered s' = filter (fun p => filt s (heap p) (query s')) (options s) /\ options s' = options s /\ height s' = height s /\ filt s' = filt s /\
  cursor s' = Z.max 0 (Z.min (cursor s) (Z.of_nat (length (filtered s')) - 1)).
Proof using.
  intros u k s s' H.
  assert (G : s' = s \/ query s' = query s /\ ktype k <> KEsc \/ exists q, s' = set_query heap s q).
  { unfold s'. cbn [mstep]. unfold mhandle_key. destruct (maction_of k) as [[]| | | | |] eqn:E; cbn [fst mdom put on_base base]; try (right; right; eexists; reflexivity; fail); try (left; reflexivity);
    try (right; left; split; [reflexivity|]; intros Q; unfold maction_of in E; rewrite Q in E; discriminate).
    - unfold mfilter_input. destruct (mfilterable u); auto. destruct (ktype k); auto; try (left; reflexivity); try (right; right; eexists; reflexivity; fail). fold s. destruct (query s); [left; reflexivity|]. right; right; eexists; reflexivity.
    - unfold mfilter_input. destruct (mfilterable u); auto. destruct (ktype k); auto; try (left; reflexivity); try (right; right; eexists; reflexivity; fail). fold s. destruct (query s); [left; reflexivity|]. right; right; eexists; reflexivity.
    - left. unfold toggle. destruct (at_ _ _); auto. destruct (index_of _ _); reflexivity.
    - left. destruct (can_confirm _); reflexivity.
    - unfold mfilter_input. destruct (mfilterable u); auto. destruct (ktype k); auto; try (left; reflexivity); try (right; right; eexists; reflexivity; fail). fold s. destruct (query s); [left; reflexivity|]. right; right; eexists; reflexivity. }
  assert (E : exists q, s' = set_query heap s q).
  { destruct G as [G|[[G G']|G]]; auto; [|destruct H; [congruence|contradiction]].
    destruct H as [H|H]; [congruence|]. exists []. unfold s'. cbn [mstep]. unfold mhandle_key, maction_of. rewrite H. reflexivity. }
  destruct E as [q ->]. unfold set_query. cbv zeta. cbn [filtered options chosen height filt cursor query]. repeat split.
  set (n := Z.of_nat (length _)). assert (0 <= n) by lia. destruct (n <=? cursor s) eqn:E; match goal with |- context [if ?b then _ else _] => destruct b eqn:? end; lia.
Qed.

(** Typing in a filterable MultiSelect appends each unbound character; Backspace takes back an ASCII one, Escape all of it. *)
Theorem C75_multiselect_off_by_default : forall ops (d : A -> list Z -> bool), (forall b, ~ In (MFilterable b) ops) -> query (base (mdom (msteps heap ops (new_mui d)))) = [].
Proof using.
  intros ops d N. assert (G : forall ops u, (forall b, ~ In (MFilterable b) ops) -> mfilterable u = false -> query (base (mdom u)) = [] -> query (base (mdom (msteps heap ops u))) = []).
  { clear. induction ops as [|o ops IH]; intros u N F Q; [exact Q|]. cbn [msteps fold_left]. 
    assert (X : mfilterable (mstep heap u o) = false /\ query (base (mdom (mstep heap u o))) = []).
    { destruct o as [k|h|f|b|l|n|n|os d]; cbn [mstep]; auto; [|exfalso; apply (N b); now left].
      unfold mhandle_key. destruct (maction_of k) as [[]| | | | |]; cbn [fst put mfilterable mdom on_base base]; auto; try (unfold mfilter_input; rewrite F; now auto).
      - split; [first [exact F|reflexivity]|]. unfold toggle. destruct (at_ _ _); auto. destruct (index_of _ _); auto.
      - destruct (can_confirm _); auto. }
    destruct X. apply IH; auto. intros b I. apply (N b). now right. }
  apply G; auto.
Qed.
Theorem C75_multiselect_typing : forall (u : mui A) c, mfilterable u = true -> mfree_char c ->
  query (base (mdom (mstep heap u (MKey (rune_key c))))) = query (base (mdom u)) ++ enc_rune c /\ (0 <= c < 128 -> query (base (mdom (mstep heap (mstep heap u (MKey (rune_key c))) (MKey (plain KBackspace))))) = query (base (mdom u))) /\ query (base (mdom (mstep heap u (MKey (plain KEsc))))) = [].
Proof using.
  intros u c F ((N1 & N2 & N3 & N4) & N5 & N6).
  assert (E : mstep heap u (MKey (rune_key c)) = put u (on_base (mdom u) (fun s => set_query heap s (query s ++ enc_rune c)))).
  { cbn [mstep]. unfold mhandle_key, maction_of. cbn [ktype krune rune_key].
    replace (c =? 107) with false by lia. replace (c =? 106) with false by lia. replace (c =? 103) with false by lia. replace (c =? 71) with false by lia. replace (c =? 97) with false by lia. replace (c =? 110) with false by lia.
    cbn [fst]. unfold mfilter_input. rewrite F. reflexivity. }
  rewrite E. split; [reflexivity|]. split; [|reflexivity]. intros H.
  assert (Ec : enc_rune c = [c]) by (unfold enc_rune; repeat (match goal with |- context [if ?b then _ else _] => destruct b eqn:? end; try reflexivity; try lia)).
  rewrite Ec. set (v := put u _). assert (Fv : mfilterable v = true) by exact F. assert (Qv : query (base (mdom v)) = query (base (mdom u)) ++ [c]) by reflexivity. clearbody v.
  cbn [mstep]. change (mhandle_key heap v (plain KBackspace)) with (mfilter_input heap v (plain KBackspace), @MNone_ A). cbn [fst]. unfold mfilter_input. rewrite Fv, Qv. cbn [ktype plain].
  destruct (query (base (mdom u)) ++ [c]) as [|x q] eqn:Q; [destruct (query (base (mdom u))); discriminate|].
  change (removelast (x :: q) = query (base (mdom u))). rewrite <- Q. apply removelast_last.
Qed.

(* ---------- views ---------- *)
(** The view: the title and a blank line if there is a title, the rendered options or a placeholder, and the filter status if filterable. *)
Definition placeholder {R} (q : list Z) : vline R := if list_eqb q [] then VNoOptions else VNoMatches.
Definition body_lines {R} (rs : list R) (q : list Z) (body : list (vline R)) : Prop := (rs = [] -> body = [placeholder q]) /\ (rs <> [] -> body = map VOpt rs).
Theorem C35_view : forall ops d ttl, let u := ssteps heap ops (@new_sui A d) in
  exists rs body, render_visible (dom u) = Some rs /\ body_lines rs (query (dom u)) body /\
    sview ttl u = Some ((if list_eqb ttl [] then [] else [VTitle ttl; VBlank]) ++ body ++
      (if filterable u then [VBlank; if list_eqb (query (dom u)) [] then VTypeToFilter else VFilter (query (dom u))] else [])).
Proof using.
  intros ops d ttl u. destruct (C35_window heap ops d) as (rs & E & _). fold u in E. exists rs, (option_lines rs (query (dom u))). split; [exact E|]. split.
  - split; intros H; [subst rs; unfold option_lines, placeholder; destruct (query (dom u)); reflexivity|]. destruct rs; [congruence|reflexivity].
  - unfold sview. rewrite E. unfold filter_lines. destruct ttl, (query (dom u)); reflexivity.
Qed.
(** MultiSelect draws the same window, each option with its selection state, and counts the selected options in the title. *)
Theorem C36_view : forall ops d ttl, let u := msteps heap ops (@new_mui A d) in let s := base (mdom u) in
  exists rs body, body_lines rs (query s) body /\
    render_visible s = Some (map fst rs) /\
    (forall p j b sl, In (p, j, b, sl) rs -> exists i, at_ (options s) i = Some p /\ (sl = true <-> In i (indices (picked (mdom u))))) /\
    mview ttl u = Some ((if list_eqb ttl [] then [] else [match options s with [] => VTitle ttl | _ => VTitleCount ttl (Z.of_nat (length (indices (picked (mdom u))))) (Z.of_nat (length (options s))) end; VBlank]) ++ body ++
      (if mfilterable u then [VBlank; if list_eqb (query s) [] then VTypeToFilter else VFilter (query s)] else []) ++ [VBlank; VHelp]).
Proof using.
  intros ops d ttl u s. assert (K : msel_ok (mdom u)) by apply msteps_ok, new_mok. apply mok_iff in K as [Kb K]. fold s in Kb.
  assert (R : exists rr, render_visible s = Some rr /\ forall p j b, In (p, j, b) rr -> In p (filtered s)).
  { unfold render_visible. destruct (nfilt s =? 0) eqn:Z0; [exists []; split; auto; intros ? ? ? []|].
    pose proof (adjusted_eq s Kb) as Ad. destruct Kb as [Ks [K2 K2'] Kh Kc _]. rewrite Ad. unfold nfilt in *. cbv zeta.
    assert (Q : first_row s < Z.of_nat (length (filtered s))) by (unfold first_row; destruct K2' as [K2'|[K2' _]]; [lia|rewrite K2' in Z0; cbn in Z0; lia]).
    assert (Q0 : 0 <= first_row s) by (unfold first_row; lia).
    set (e := if _ <? _ then _ else _). assert (Qe : first_row s <= e <= Z.of_nat (length (filtered s))) by (unfold e; destruct (_ <? _) eqn:E; lia).
    replace ((first_row s <? 0) || (e - first_row s <? 0)) with false by lia. eexists. split; [reflexivity|]. intros p j b I. apply in_map_iff in I as (x & Ex & Ix). apply in_seq in Ix.
    apply pair_equal_spec in Ex as [Ex _]. apply pair_equal_spec in Ex as [Ex _]. subst p. apply nth_In. lia. }
  destruct R as (rr & E & In_f).
  set (rs := map (fun r => (r, match index_of (fst (fst r)) (options s) with Some i => mem i (idx (picked (mdom u))) | None => false end)) rr).
  exists rs, (option_lines rs (query s)). split; [|split; [|split]].
  - split; intros H; [rewrite H; unfold option_lines, placeholder; destruct (query s); reflexivity|]. destruct rs; [congruence|reflexivity].
  - rewrite E. f_equal. unfold rs. rewrite map_map. cbn [fst]. symmetry. apply map_id.
  - intros p j b sl I. unfold rs in I. apply in_map_iff in I as (r & Er & Ir). apply pair_equal_spec in Er as [Er El]. subst r. cbn [fst] in El.
    destruct (index_of_spec p (options s)) as (i & Ei & Ha); [apply Kb, (In_f p j b Ir)|]. rewrite Ei in El. exists i. split; [exact Ha|]. subst sl. rewrite mem_in.
    split; intros I; [apply (Permutation_in i (indices_perm _)), I|apply (Permutation_in i (Permutation_sym (indices_perm _))), I].
  - unfold mview, mrender_visible. fold s. rewrite E. fold rs. unfold filter_lines. unfold cnt. rewrite (Permutation_length (indices_perm (picked (mdom u)))).
    f_equal. f_equal; [destruct ttl; [reflexivity|]; destruct (options s); reflexivity|]. destruct (query s); reflexivity.
Qed.
(** " (disabled)" *)
Definition said_disabled : list Z := [32; 40; 100; 105; 115; 97; 98; 108; 101; 100; 41].
(** The default renderers show the label, after the cursor mark and the checkbox, and the description. *)
Theorem C35_default_render : forall o f,
  exists tail, sdefault_render o f = (if f then [62; 32] else [32; 32]) ++ ot_label o ++ tail /\ (ot_disabled o = false -> ot_desc o = [] -> tail = []) /\
    (ot_desc o <> [] -> exists x, tail = x ++ [32; 45; 32] ++ ot_desc o) /\ (ot_disabled o = true -> exists x, tail = said_disabled ++ x).
Proof using.
  clear. intros o f. unfold sdefault_render. eexists. split; [reflexivity|]. split; [|split].
  - intros -> ->. reflexivity.
  - intros N. destruct (ot_desc o) as [|c d]; [congruence|]. eexists. reflexivity.
  - intros ->. eexists. reflexivity.
Qed.
Theorem C36_default_render : forall o f b,
  exists tail, mdefault_render o f b = (if f then [62; 32] else [32; 32]) ++ (if b then [91; 120; 93; 32] else [91; 32; 93; 32]) ++ ot_label o ++ tail /\ (ot_disabled o = false -> ot_desc o = [] -> tail = []) /\
    (ot_desc o <> [] -> exists x, tail = [32; 45; 32] ++ ot_desc o ++ x) /\ (ot_disabled o = true -> exists x, tail = x ++ said_disabled).
Proof using.
  clear. intros o f b. unfold mdefault_render. eexists. split; [reflexivity|]. split; [|split].
  - intros -> ->. reflexivity.
  - intros N. destruct (ot_desc o) as [|c d]; [congruence|]. eexists. rewrite <- app_assoc. reflexivity.
  - intros ->. eexists. reflexivity.
Qed.
End View.
(** WithDefault does not select anything; calling Options after another setter loses that setting. *)
Theorem C169_default_not_selected_refuted : forall (A : Type) (heap : Z -> A) d os v,
  selected_value heap (dom (with_default (sstep heap (new_sui d) (SOptions os d)) v)) = None.
Proof. reflexivity. Qed.
Theorem C170_options_resets_height_refuted : exists os h, 
  height (dom (ssteps hp [SOptions os has_all; SHeight h] (new_sui has_all))) = h /\ height (dom (ssteps hp [SHeight h; SOptions os has_all] (new_sui has_all))) <> h /\
  indices (picked (mdom (msteps hp [MOptions os has_all; MSelected [1]] (new_mui has_all)))) = [1] /\ indices (picked (mdom (msteps hp [MSelected [1]; MOptions os has_all] (new_mui has_all)))) = [].
Proof. exists [0; 1; 2], 3. repeat split. discriminate. Qed.
(** The other setters of Select commute. *)
Definition is_config {A} (o : sop A) : Prop := match o with SHeight _ | SFilterFn _ | SFilterable _ => True | _ => False end.
Definition same_setter {A} (a b : sop A) : Prop := match a, b with SHeight _, SHeight _ | SFilterFn _, SFilterFn _ | SFilterable _, SFilterable _ => True | _, _ => False end.
Theorem C170_other_setters_commute_partial : forall (A : Type) (heap : Z -> A) (u : sui A) a b, is_config a -> is_config b -> ~ same_setter a b ->
  sstep heap (sstep heap u a) b = sstep heap (sstep heap u b) a.
Proof. intros A heap u a b. destruct a; cbn; try tauto; destruct b; cbn; tauto. Qed.
Example C36_ex2 : let u := msteps hp [MOptions [0; 1; 2] has_all; MMax 2; MSelected [2]; MKey (rune_key 97)] (new_mui has_all) in
  indices (picked (mdom u)) = [0; 2] /\ indices (picked (mdom (mstep hp u (MMax 1)))) = [0] /\
  mview [116] u = Some [VTitleCount [116] 2 3; VBlank; VOpt (0, 0, true, true); VOpt (1, 1, false, false); VOpt (2, 2, false, true); VBlank; VHelp].
Proof. repeat split; reflexivity. Qed.
Example C75_ex2 : let u := ssteps hp [SOptions [0; 1; 2] has_all; SFilterable true] (new_sui has_all) in
  query (dom (sstep hp u (SKey (rune_key 99)))) <> query (dom u) /\ filtered (dom (sstep hp u (SKey (rune_key 99)))) = [0; 2].
Proof. split; [discriminate|reflexivity]. Qed.

Print Assumptions C35_movement_keys. Print Assumptions C35_calls. Print Assumptions C35_other_keys_ignored. Print Assumptions C75_query_shows_matching.
Print Assumptions C75_off_by_default. Print Assumptions C36_movement_keys. Print Assumptions C36_calls. Print Assumptions C36_preselection.
Print Assumptions C36_all_fills_up. Print Assumptions C36_none_keeps_the_rest. Print Assumptions C36_limits_keep_selection. Print Assumptions C36_selected_values.
Print Assumptions C75_multiselect_query. Print Assumptions C75_multiselect_off_by_default. Print Assumptions C75_multiselect_typing. Print Assumptions C35_view.
Print Assumptions C36_view. Print Assumptions C35_default_render. Print Assumptions C36_default_render. Print Assumptions C169_default_not_selected_refuted.
Print Assumptions C170_options_resets_height_refuted. Print Assumptions C170_other_setters_commute_partial.
