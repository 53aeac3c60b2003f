(** More about the list: window position, view, calls, unbound keys, the default filter (C31, C32, C66). *)
From Verif Require Import Prelude KeysModel LsModel LsSpec LsProofs.

Section Props.
Context {A : Type}.
Variable dflt : A -> list Z -> bool.

(* ---------- C31 ---------- *)
Definition centred (l : lst A) : Prop := scroll l = calc_scroll (foc l) (height l) (count l).
Lemma centred_step (u : ui A) o : ls_ok (dom u) -> sane u o -> centred (dom u) -> centred (dom (lstep u o)).
Proof.
  intros K S H. destruct o as [k|h|f|b]; cbn [lstep dom]; try reflexivity.
  - assert (M : forall i, centred (move (dom u) i)) by (intros i; unfold move; destruct (_ =? 0); [exact H|reflexivity]).
    assert (Q : forall q, centred (set_query (dom u) q)) by (intros q; unfold set_query, reset_focus; destruct (_ <=? _); reflexivity).
    assert (T : forall s, centred (set_sel (dom u) s)) by (intros s; exact H).
    unfold handle_key. destruct (action_of k) as [a|].
    + destruct a; cbn [fst dom]; try apply M; try apply T; try apply Q; try exact H.
      * unfold toggle. destruct (_ =? 0); [exact H|]. destruct (single _); [apply T|]. destruct (mem _ _); apply T.
      * unfold select_all. destruct (_ || _); [exact H|apply T].
    + destruct (_ && _); [apply Q|]. destruct (_ && _); [apply Q|exact H].
  - cbn in S. unfold centred in *. unfold with_filter, apply_filter. cbn [scroll foc height]. rewrite H. f_equal. unfold count. cbn [filtered items query filt].
    rewrite (k_shown _ K). unfold shown, filter_items. now rewrite S.
  - exact H.
Qed.
(** The window puts the focused item in the middle, as far as the ends of the list allow. *)
Theorem C31_window_centred_on_focus : forall its one os, sane_run (new_ui dflt its one) os ->
  let l := dom (lsteps os (new_ui dflt its one)) in
  scroll l = Z.max 0 (Z.min (foc l - height l / 2) (Z.of_nat (length (shown l)) - height l)).
Proof.
  intros its one os S l.
  assert (G : forall os (u : ui A), ls_ok (dom u) -> sane_run u os -> centred (dom u) -> centred (dom (lsteps os u)) /\ ls_ok (dom (lsteps os u))).
  { clear. induction os as [|o os IH]; intros u K S H; [auto|]. destruct S as [S1 S2]. cbn [lsteps fold_left]. apply IH; auto; [apply lstep_ok; auto|apply centred_step; auto]. }
  destruct (G os (new_ui dflt its one) (new_ok dflt its one) S) as [H K].
  { unfold new_ui, new_list, reset_focus. cbn [dom]. destruct (_ <=? _); reflexivity. }
  fold l in H, K. unfold centred in H. rewrite H, (count_size _ (k_shown _ K)). change (Z.of_nat (length (shown l))) with (size_of l).
  pose proof (k_h _ K) as Hh. pose proof (size_nonneg l). unfold calc_scroll. rewrite Z.quot_div_nonneg by lia. assert (D : 0 <= height l / 2 < height l) by (Z.div_mod_to_equations; lia).
  destruct ((size_of l =? 0) || (height l <=? 0)) eqn:E; [lia|]. destruct (size_of l <=? height l) eqn:E1; [lia|]. cbv zeta.
  destruct (foc l - height l / 2 <? 0) eqn:E2; [lia|]. destruct (size_of l - height l <? foc l - height l / 2) eqn:E3; lia.
Qed.
(** What View writes: one row per drawn item, or one placeholder row; and the status row exactly when the filter is shown and has text. *)
Theorem C31_view_rows : forall its one os R (rend : A -> Z -> bool -> bool -> R), sane_run (new_ui dflt its one) os ->
  let u := lsteps os (new_ui dflt its one) in let l := dom u in
  exists rs body, render_visible rend l = Some rs /\
    view_rows rend l (show_filter u) = Some (body ++ (if show_filter u && negb (list_eqb (query l) []) then [RFilterActive] else [])) /\
    body = (match shown l with
            | [] => [match query l with [] => REmptyList | _ => RNoMatches end]
            | _ => map RItem rs end).
Proof.
  intros its one os R rend S u l. pose proof (lsteps_ok os _ (new_ok dflt its one) S) as K. fold u in K. fold l in K.
  unfold view_rows. destruct (render_visible rend l) as [rs|] eqn:E.
  - eexists rs, _. split; [reflexivity|]. split; [|reflexivity]. f_equal. f_equal; [|destruct (query l); reflexivity].
    unfold render_visible in E. rewrite (count_size _ (k_shown _ K)) in E. unfold size_of in E. destruct (shown l) as [|a r] eqn:Sh.
    + cbn in E. inversion E. subst rs. destruct (query l); reflexivity.
    + pose proof (k_h _ K). destruct (k_scroll _ K) as [Sc _]. unfold size_of in Sc. rewrite Sh in Sc.
      set (n := Z.of_nat (length (a :: r))) in *. assert (N : 0 < n) by (unfold n; cbn [length]; lia). clearbody n.
      replace (n =? 0) with false in E by lia. replace (n <=? scroll l) with false in E by lia. cbv zeta in E.
      destruct (_ <? 0); [discriminate|]. destruct rs as [|x rs]; [|reflexivity]. exfalso.
      assert (L : length (@nil (option R)) = Z.to_nat ((if n <? scroll l + height l then n else scroll l + height l) - scroll l)) by (apply (f_equal (fun o => match o with Some z => length z | None => 0%nat end)) in E; cbv beta iota in E; rewrite map_length, seq_length in E; symmetry; exact E).
      cbn [length] in L. destruct (n <? scroll l + height l) eqn:Q; lia.
  - exfalso. unfold render_visible in E. rewrite (count_size _ (k_shown _ K)) in E. pose proof (k_h _ K). destruct (k_scroll _ K) as [Sc _]. pose proof (size_nonneg l).
    destruct (size_of l =? 0) eqn:E0; [discriminate|]. replace (size_of l <=? scroll l) with false in E by lia. cbv zeta in E.
    destruct (size_of l <? scroll l + height l) eqn:Q; match type of E with context [if ?b then _ else _] => destruct b eqn:? end; try discriminate; lia.
Qed.

(** SelectedItems gives exactly the items at the selected indices. *)
Theorem C32_selected_items_exact : forall its one os, sane_run (new_ui dflt its one) os ->
  let l := dom (lsteps os (new_ui dflt its one)) in selected_items l = map (fun i => nth_error (shown l) (Z.to_nat i)) (sel l).
Proof.
  intros its one os S l. pose proof (lsteps_ok os _ (new_ok dflt its one) S) as K. fold l in K. destruct (k_sel _ K) as [S1 _].
  unfold selected_items. rewrite (count_size _ (k_shown _ K)), (k_shown _ K). induction S1 as [|i s Hi _ IH]; [reflexivity|].
  cbn [filter]. replace (i <? size_of l) with true by lia. cbn [map]. rewrite IH. f_equal. unfold at_. now replace (i <? 0) with false by lia.
Qed.

(* ---------- C66 ---------- *)
(** The calls change what they name and nothing else (the window follows the height). *)
Theorem C66_calls : forall (u : ui A) h b f, let l := dom u in
  (let u' := lstep u (OHeight h) in height (dom u') = h /\ items (dom u') = items l /\ filtered (dom u') = filtered l /\ sel (dom u') = sel l /\
     foc (dom u') = foc l /\ query (dom u') = query l /\ show_filter u' = show_filter u) /\
  (let u' := lstep u (OShow b) in dom u' = l /\ show_filter u' = b) /\
  (let u' := lstep u (OFilter f) in filt (dom u') = f /\ items (dom u') = items l /\ query (dom u') = query l /\ foc (dom u') = foc l /\ height (dom u') = height l /\
     sel (dom u') = [] /\ show_filter u' = show_filter u).
Proof. intros u h b f l. repeat split. Qed.
(** Enter, and any unbound key while the filter is hidden, change nothing; with the filter shown only characters and Backspace do. *)
Theorem C66_other_keys_ignored : forall (u : ui A) k,
  handle_key u (plain KEnter) = (u, false) /\
  (~ In (key_string k) (map fst bindings) ->
     (show_filter u = false -> handle_key u k = (u, false)) /\
     (ktype k <> KRune -> ktype k <> KBackspace -> handle_key u k = (u, false))).
Proof.
  intros u k. split; [reflexivity|]. intros N.
  assert (E : action_of k = None).
  { unfold action_of. assert (G : forall bs acc, (forall s, In s (map fst bs) -> key_string k <> s) -> lookup_last bs (key_string k) acc = acc).
    { induction bs as [|[s a] bs IH]; intros acc H; [reflexivity|]. cbn [lookup_last]. destruct (list_eqb (key_string k) s) eqn:Q.
      - apply list_eqb_eq in Q. exfalso. apply (H s); cbn; auto.
      - apply IH. intros x I. apply H. cbn. auto. }
    apply G. intros s I Q. apply N. rewrite Q. exact I. }
  unfold handle_key. rewrite E. split.
  - intros ->. reflexivity.
  - intros N1 N2. assert (X : forall t, t <> KRune -> is_type t KRune = false) by (intros [] Q; try reflexivity; congruence).
    assert (Y : forall t, t <> KBackspace -> is_type t KBackspace = false) by (intros [] Q; try reflexivity; congruence).
    rewrite (X _ N1), (Y _ N2), !andb_false_r. reflexivity.
Qed.
(** The selected and quit keys: nothing else in the list changes when it quits. *)
Theorem C66_quit_keeps_the_list : forall (u : ui A) k, snd (handle_key u k) = true -> fst (handle_key u k) = u.
Proof.
  intros u k. unfold handle_key. destruct (action_of k) as [a|]; [destruct a; cbn [snd fst]; intros H; (reflexivity || discriminate)|].
  destruct (_ && _); [intros H; discriminate|]. destruct (_ && _); intros H; (reflexivity || discriminate).
Qed.
End Props.

(* ---------- C32 ---------- *)
Lemma starts_spec p : forall s, starts_with p s = true <-> exists r, s = p ++ r.
Proof.
  induction p as [|a p IH]; intros s; cbn [starts_with]; [split; [exists s; reflexivity|auto]|]. destruct s as [|b s].
  - split; [discriminate|]. intros (r & E). discriminate E.
  - rewrite andb_true_iff, Z.eqb_eq, IH. split; [intros (-> & r & ->); exists r; reflexivity|]. intros (r & E). cbn in E. inversion E. subst. split; auto. now exists r.
Qed.
Lemma occurs_spec p : forall s, occurs_in p s = true <-> exists x y, s = x ++ p ++ y.
Proof.
  induction s as [|b s IH]; cbn [occurs_in]; rewrite orb_true_iff, starts_spec.
  - split; [intros [(r & E)|H]; [exists [], r; exact E|discriminate]|]. intros (x & y & E). destruct x; [|discriminate E]. left. now exists y.
  - rewrite IH. split.
    + intros [(r & E)|(x & y & E)]; [exists [], r; exact E|exists (b :: x), y; now rewrite E].
    + intros (x & y & E). destruct x as [|c x]; [left; now exists y|]. cbn in E. inversion E. subst. right. now exists x, y.
Qed.
(** The default filter: the item's label contains the query, ignoring case; the empty query matches everything. *)
Theorem C32_default_filter : forall (A : Type) lower (label : A -> list Z) a q, lower [] = [] ->
  (default_filter lower label a q = true <-> exists x y, lower (label a) = x ++ lower q ++ y).
Proof.
  intros A lower label a q L0. unfold default_filter. destruct q as [|c q]; [|apply occurs_spec]. rewrite L0. split; [exists [], (lower (label a)); reflexivity|reflexivity].
Qed.
Example C32_default_ex : default_filter (map (fun c => if (65 <=? c) && (c <=? 90) then c + 32 else c)) (fun x => x) [72; 101; 76; 108; 111] [108; 76] = true.
Proof. reflexivity. Qed.
Example C31_rows_ex : view_rows (fun a i s f => (a, i, s, f)) (dom (lsteps [OShow true; OKey (rune_key 122)] (new_ui (fun a q => existsb (Z.eqb a) q) [97; 98] false))) true = Some [RNoMatches; RFilterActive].
Proof. reflexivity. Qed.

Print Assumptions C31_window_centred_on_focus. Print Assumptions C31_view_rows. Print Assumptions C32_selected_items_exact. Print Assumptions C66_calls.
Print Assumptions C66_other_keys_ignored. Print Assumptions C66_quit_keeps_the_list. Print Assumptions C32_default_filter.
