(** C31, C32, C66, C67, C68: the list. *)
From Verif Require Import Prelude KeysModel LsModel LsSpec LsProofs.

Section Props.
Context {A : Type}.
Variable dflt : A -> list Z -> bool.

(* ---------- C31 ---------- *)
(** After any history: either nothing is shown and there is no focused item, or the focused item is
    the one at the focused index and that index is inside the drawn window. *)
Theorem C31_focus_exists_and_is_visible : forall its one os, sane_run (new_ui dflt its one) os ->
  let l := dom (lsteps os (new_ui dflt its one)) in
  (shown l = [] /\ foc l = 0 /\ focused_item l = Some None) \/
  (exists a, focused_item l = Some (Some a) /\ nth_error (shown l) (Z.to_nat (foc l)) = Some a /\
     0 <= foc l < Z.of_nat (length (shown l)) /\ scroll l <= foc l < scroll l + height l).
Proof.
  intros its one os S l. pose proof (lsteps_ok os _ (new_ok dflt its one) S) as K. fold l in K. destruct (k_foc _ K) as [F0 F].
  unfold focused_item. rewrite (count_size _ (k_shown _ K)), (k_shown _ K).
  destruct F as [F|[F1 F2]].
  - right. replace (_ || _) with false by lia. destruct (at_in (shown l) (foc l)) as (a & E1 & E2); [unfold size_of in F; lia|].
    exists a. rewrite E1. repeat split; auto; apply K; auto.
  - left. rewrite F1. cbn [Z.eqb orb]. repeat split; auto. unfold size_of in F1. destruct (shown l); auto. cbn in F1. lia.
Qed.
(** The view draws min(height, size) consecutive items around the focus, each with its own selected and focused marks. *)
Theorem C31_view_draws_the_window : forall its one os R (rend : A -> Z -> bool -> bool -> R), sane_run (new_ui dflt its one) os ->
  let l := dom (lsteps os (new_ui dflt its one)) in
  exists rs, render_visible rend l = Some rs /\ Z.of_nat (length rs) = Z.min (height l) (Z.of_nat (length (shown l))) /\
    forall i, (i < length rs)%nat -> exists a, nth_error (shown l) (Z.to_nat (scroll l) + i) = Some a /\
      nth_error rs i = Some (Some (rend a (scroll l + Z.of_nat i) (mem (scroll l + Z.of_nat i) (sel l)) (scroll l + Z.of_nat i =? foc l))).
Proof.
  intros its one os R rend S l. pose proof (lsteps_ok os _ (new_ok dflt its one) S) as K. fold l in K.
  pose proof (k_h _ K) as Hh. destruct (k_scroll _ K) as [Sc _]. pose proof (size_nonneg l) as Sz. unfold render_visible. rewrite (count_size _ (k_shown _ K)).
  change (Z.of_nat (length (shown l))) with (size_of l).
  destruct (size_of l =? 0) eqn:E0.
  { exists []. cbn [length]. repeat split; [lia|]. intros i Hi. exfalso. cbn in Hi. lia. }
  replace (size_of l <=? scroll l) with false by lia. cbv zeta.
  assert (EE : (if size_of l <? scroll l + height l then size_of l else scroll l + height l) - scroll l = Z.min (height l) (size_of l)) by (destruct (_ <? _) eqn:Q; lia).
  rewrite EE. replace (_ <? 0) with false by lia. eexists. split; [reflexivity|]. rewrite map_length, seq_length. split; [lia|].
  intros i Hi. destruct (at_in (filtered l) (scroll l + Z.of_nat i)) as (a & E1 & E2); [rewrite (k_shown _ K); unfold size_of in *; lia|].
  exists a. rewrite (k_shown _ K) in E2. replace (Z.to_nat (scroll l) + i)%nat with (Z.to_nat (scroll l + Z.of_nat i)) by lia. split; auto.
  set (n := Z.to_nat (Z.min (height l) (size_of l))) in *.
  rewrite (map_nth_error _ i _ (d := i)); [|rewrite nth_error_nth' with (d := 0%nat) by (rewrite seq_length; lia); now rewrite seq_nth by lia].
  unfold render_item. rewrite (count_size _ (k_shown _ K)), E1. replace (_ || _) with false by lia. reflexivity.
Qed.

(* ---------- C32 ---------- *)
(** The items offered are exactly the matching ones in their order; without a query, all of them. *)
Theorem C32_filtering_exact : forall its one os, sane_run (new_ui dflt its one) os ->
  let l := dom (lsteps os (new_ui dflt its one)) in
  items l = its /\ filtered l = match query l with [] => its | q => filter (fun a => filt l a q) its end.
Proof.
  intros its one os S l. pose proof (lsteps_ok os _ (new_ok dflt its one) S) as K. fold l in K.
  assert (I : items l = its).
  { unfold l. clear S l K. assert (G : forall u : ui A, items (dom (lsteps os u)) = items (dom u)).
    { induction os as [|o os IH]; intros u; [reflexivity|]. cbn [lsteps fold_left]. fold (lsteps os (lstep u o)). rewrite IH. destruct o; cbn [lstep dom]; try reflexivity.
      - unfold handle_key. assert (M : forall i, items (move (dom u) i) = items (dom u)) by (intros i; unfold move; destruct (_ =? 0); reflexivity).
        assert (Q : forall q, items (set_query (dom u) q) = items (dom u)) by (intros q; unfold set_query, reset_focus; destruct (_ <=? _); reflexivity).
        destruct (action_of k) as [a|].
        + destruct a; cbn [fst dom]; try apply M; try apply Q; try reflexivity.
          * unfold toggle. repeat match goal with |- context [if ?b then _ else _] => destruct b end; reflexivity.
          * unfold select_all. destruct (_ || _); reflexivity.
        + destruct (_ && _); [apply Q|]. destruct (_ && _); [apply Q|reflexivity]. }
    rewrite G. unfold new_ui, new_list, reset_focus. cbn [dom]. destruct (_ <=? _); reflexivity. }
  split; auto. rewrite (k_shown _ K). unfold shown. now rewrite I.
Qed.
(** A list on which ShowFilter(true) is never called is never filtered, whatever is typed. *)
Theorem C32_typing_without_filter : forall its one os, ~ In (OShow true) os ->
  let l := dom (lsteps os (new_ui dflt its one)) in query l = [] /\ filtered l = its.
Proof.
  intros its one os N l.
  assert (G : forall (u : ui A), show_filter u = false -> query (dom u) = [] -> items (dom u) = its -> filtered (dom u) = its ->
    query (dom (lsteps os u)) = [] /\ filtered (dom (lsteps os u)) = its).
  { clear l. induction os as [|o os IH]; intros u S Q I F; [auto|]. cbn [lsteps fold_left]. fold (lsteps os (lstep u o)).
    assert (N1 : o <> OShow true) by (intros ->; apply N; left; reflexivity).
    assert (MQ : forall i, query (move (dom u) i) = [] /\ items (move (dom u) i) = its /\ filtered (move (dom u) i) = its).
    { intros i. unfold move. destruct (count (dom u) =? 0); cbn [rescroll set_foc query items filtered]; auto. }
    assert (QQ : query (set_query (dom u) []) = [] /\ items (set_query (dom u) []) = its /\ filtered (set_query (dom u) []) = its).
    { unfold set_query, reset_focus. destruct (_ <=? _); cbn [rescroll set_foc apply_filter filter_items query items filtered]; auto. }
    assert (K : show_filter (lstep u o) = false /\ query (dom (lstep u o)) = [] /\ items (dom (lstep u o)) = its /\ filtered (dom (lstep u o)) = its).
    { destruct o as [k|h|f|[|]]; cbn [lstep dom show_filter].
      - unfold handle_key. rewrite S. cbn [andb]. destruct (action_of k) as [a|]; [destruct a|]; cbn [fst dom show_filter]; (split; [auto|]); try apply MQ; try apply QQ; auto.
        + unfold toggle. repeat match goal with |- context [if ?b then _ else _] => destruct b end; cbn [set_sel query items filtered]; auto.
        + unfold select_all. destruct (_ || _); cbn [set_sel query items filtered]; auto.
      - cbn [with_height rescroll query items filtered]. auto.
      - cbn [with_filter apply_filter query items filtered filter_items]. rewrite Q. cbn [filter_items]. auto.
      - congruence.
      - auto. }
    destruct K as (K1 & K2 & K3 & K4). apply IH; auto. intros J. apply N. right. exact J. }
  apply G; try reflexivity; unfold new_ui, new_list, reset_focus; cbn [dom]; destruct (_ <=? _); reflexivity.
Qed.
(** The selection always denotes existing items, each once; in single mode at most one. *)
Theorem C32_selection_valid : forall its one os, sane_run (new_ui dflt its one) os ->
  let l := dom (lsteps os (new_ui dflt its one)) in
  Forall (fun i => 0 <= i < Z.of_nat (length (filtered l))) (sel l) /\ NoDup (sel l) /\
  (one = true -> (length (selected_items l) <= 1)%nat) /\
  Forall (fun x => exists i a, In i (sel l) /\ x = Some a /\ nth_error (filtered l) (Z.to_nat i) = Some a) (selected_items l).
Proof.
  intros its one os S l. pose proof (lsteps_ok os _ (new_ok dflt its one) S) as K. fold l in K. destruct (k_sel _ K) as [S1 S2].
  assert (O : single l = one).
  { unfold l. clear. assert (G : forall u : ui A, single (dom (lsteps os u)) = single (dom u)).
    { induction os as [|o os IH]; intros u; [reflexivity|]. cbn [lsteps fold_left]. fold (lsteps os (lstep u o)). rewrite IH. destruct o; cbn [lstep dom]; try reflexivity.
      unfold handle_key. assert (M : forall i, single (move (dom u) i) = single (dom u)) by (intros i; unfold move; destruct (_ =? 0); reflexivity).
      assert (Q : forall q, single (set_query (dom u) q) = single (dom u)) by (intros q; unfold set_query, reset_focus; destruct (_ <=? _); reflexivity).
      destruct (action_of k) as [a|].
      + destruct a; cbn [fst dom]; try apply M; try apply Q; try reflexivity.
        * unfold toggle. destruct (count (dom u) =? 0); auto. destruct (single (dom u)) eqn:E; [exact E|]. destruct (mem _ _); exact E.
        * unfold select_all. destruct (_ || _); reflexivity.
      + destruct (_ && _); [apply Q|]. destruct (_ && _); [apply Q|reflexivity]. }
    rewrite G. unfold new_ui, new_list, reset_focus. cbn [dom]. destruct (_ <=? _); reflexivity. }
  unfold size_of in S1. rewrite (k_shown _ K). split; [exact S1|]. split; [exact S2|]. split.
  - intros ->. unfold selected_items. rewrite map_length. pose proof (k_single _ K O). assert (F : forall (f : Z -> bool) s, (length (filter f s) <= length s)%nat) by (intros f s; induction s as [|y s IHs]; cbn; [lia|destruct (f y); cbn; lia]).
    specialize (F (fun i => i <? count l) (sel l)). lia.
  - apply Forall_forall. intros x I. apply in_map_iff in I as (i & <- & I). apply filter_In in I as [I _]. rewrite Forall_forall in S1.
    rewrite (k_shown _ K). destruct (at_in (shown l) i (S1 i I)) as (a & E1 & E2). exists i, a. auto.
Qed.
(** Toggling: with a shown item, multi mode flips the focused item and no other; single mode selects
    just the focused one. Neither moves the focus nor changes what is shown. *)
Theorem C32_toggle_changes_focused_only : forall its one os, sane_run (new_ui dflt its one) os ->
  let u := lsteps os (new_ui dflt its one) in let l := dom u in let l' := dom (lstep u (OKey (plain KSpace))) in
  foc l' = foc l /\ filtered l' = filtered l /\ scroll l' = scroll l /\
  (shown l <> [] -> forall i, mem i (sel l') = if i =? foc l then (if single l then true else negb (mem i (sel l))) else (if single l then false else mem i (sel l))).
Proof.
  intros its one os S u l l'. pose proof (lsteps_ok os _ (new_ok dflt its one) S) as K. fold u in K. fold l in K.
  change l' with (toggle l). unfold toggle. rewrite (count_size _ (k_shown _ K)). destruct (size_of l =? 0) eqn:E.
  { repeat split; auto. intros N. unfold size_of in E. destruct (shown l); [easy|cbn in E; lia]. }
  destruct (single l) eqn:O; [|destruct (mem (foc l) (sel l)) eqn:M]; cbn [set_sel foc filtered scroll sel]; repeat split; intros _ i.
  - apply eq_true_iff_eq. rewrite mem_in. unfold remove_. rewrite filter_In. destruct (Z.eqb_spec i (foc l)) as [->|N].
    + rewrite M. split; [intros [_ Q]; discriminate Q|discriminate].
    + rewrite mem_in. split; [tauto|]. intros I. split; auto.
  - destruct (Z.eqb_spec i (foc l)) as [->|N]; [rewrite M|]; unfold mem in *; cbn [existsb].
    + rewrite Z.eqb_refl. reflexivity.
    + rewrite (proj2 (Z.eqb_neq _ _) N). reflexivity.
Qed.
(** Ctrl-A selects everything shown in multi mode (nothing in single mode); Esc clears. *)
Theorem C32_select_all_and_clear : forall its one os, sane_run (new_ui dflt its one) os ->
  let u := lsteps os (new_ui dflt its one) in
  (single (dom u) = false -> forall i, In i (sel (dom (lstep u (OKey (ctrl_key 97))))) <-> 0 <= i < Z.of_nat (length (shown (dom u)))) /\
  (single (dom u) = true -> lstep u (OKey (ctrl_key 97)) = u) /\
  sel (dom (lstep u (OKey (plain KEsc)))) = [].
Proof.
  intros its one os S u. pose proof (lsteps_ok os _ (new_ok dflt its one) S) as K. fold u in K.
  change (dom (lstep u (OKey (ctrl_key 97)))) with (select_all (dom u)). unfold select_all. rewrite (count_size _ (k_shown _ K)).
  split; [|split]; [|intros O|reflexivity].
  - intros O i. rewrite O. cbn [orb]. destruct (size_of (dom u) =? 0) eqn:E.
    + destruct (k_sel _ K) as [S1 _]. rewrite Forall_forall in S1. split; [apply S1|unfold size_of in E; lia].
    + cbn [set_sel sel]. rewrite in_map_iff. rewrite (k_shown _ K). split.
      * intros (n & <- & I). apply in_seq in I. lia.
      * intros H. exists (Z.to_nat i). split; [lia|]. apply in_seq. lia.
  - change (U (select_all (dom u)) (show_filter u) = u). unfold select_all. rewrite O. destruct u; reflexivity.
Qed.

(* ---------- C66 ---------- *)
(** Navigation keys: only the focus (and the window) changes, by the documented amount. *)
Definition moved_to (l l' : lst A) (i : Z) : Prop :=
  foc l' = i /\ filtered l' = filtered l /\ sel l' = sel l /\ query l' = query l /\ height l' = height l.
Theorem C66_navigation_keys : forall its one os, sane_run (new_ui dflt its one) os ->
  let u := lsteps os (new_ui dflt its one) in let l := dom u in let n := Z.of_nat (length (shown l)) in 0 < n ->
  let after k := dom (lstep u (OKey k)) in
  Forall (fun k => moved_to l (after k) ((foc l - 1) mod n)) [plain KUp; rune_key 107] /\
  Forall (fun k => moved_to l (after k) ((foc l + 1) mod n)) [plain KDown; rune_key 106] /\
  Forall (fun k => moved_to l (after k) (Z.max 0 (foc l - height l))) [plain KPgUp; ctrl_key 117] /\
  Forall (fun k => moved_to l (after k) (Z.min (n - 1) (foc l + height l))) [plain KPgDown; ctrl_key 100] /\
  Forall (fun k => moved_to l (after k) 0) [plain KHome; rune_key 103] /\
  Forall (fun k => moved_to l (after k) (n - 1)) [plain KEnd; rune_key 71].
Proof.
  intros its one os S u l n N after. pose proof (lsteps_ok os _ (new_ok dflt its one) S) as K. fold u in K. fold l in K.
  assert (F : 0 <= foc l < n) by (destruct (k_foc _ K) as [A1 [A2|[A2 _]]]; unfold size_of in *; fold n in A2; lia).
  assert (M : forall i, moved_to l (move l i) i).
  { intros i. unfold move. rewrite (count_size _ (k_shown _ K)). unfold size_of. fold n. replace (n =? 0) with false by lia. repeat split. }
  assert (C : count l = n) by (rewrite (count_size _ (k_shown _ K)); reflexivity).
  repeat split; repeat apply Forall_cons; try apply Forall_nil.
  1,2: change (moved_to l (move_up l) ((foc l - 1) mod n)); unfold move_up, nav_up; rewrite C; replace (n =? 0) with false by lia;
       destruct (foc l <=? 0) eqn:E; [replace ((foc l - 1) mod n) with (n - 1) by (apply Z.mod_unique with (-1); lia)|rewrite Z.mod_small by lia]; apply M.
  1,2: change (moved_to l (move_down l) ((foc l + 1) mod n)); unfold move_down, nav_down; rewrite C; replace (n =? 0) with false by lia;
       destruct (n - 1 <=? foc l) eqn:E; [replace ((foc l + 1) mod n) with 0 by (apply Z.mod_unique with 1; lia)|rewrite Z.mod_small by lia]; apply M.
  1,2: change (moved_to l (page_up l) (Z.max 0 (foc l - height l))); unfold page_up, nav_pgup; rewrite C; replace (n =? 0) with false by lia;
       destruct (foc l - height l <? 0) eqn:E; [replace (Z.max 0 _) with 0 by lia|replace (Z.max 0 _) with (foc l - height l) by lia]; apply M.
  1,2: change (moved_to l (page_down l) (Z.min (n - 1) (foc l + height l))); unfold page_down, nav_pgdn; rewrite C; replace (n =? 0) with false by lia;
       destruct (n <=? foc l + height l) eqn:E; [replace (Z.min _ _) with (n - 1) by lia|replace (Z.min _ _) with (foc l + height l) by lia]; apply M.
  1,2: apply M.
  1,2: change (moved_to l (to_end l) (n - 1)); unfold to_end, nav_end; rewrite C; replace (n =? 0) with false by lia; apply M.
Qed.
(** With nothing shown, navigation, toggling and selecting change nothing. *)
Theorem C66_empty_list_inert : forall u : ui A, filtered (dom u) = [] ->
  Forall (fun k => lstep u (OKey k) = u) [plain KUp; plain KDown; plain KPgUp; plain KPgDown; plain KHome; plain KEnd; plain KSpace; ctrl_key 97].
Proof.
  intros u E. assert (C : count (dom u) =? 0 = true) by (unfold count; now rewrite E).
  assert (M : forall i, move (dom u) i = dom u) by (intros i; unfold move; now rewrite C).
  assert (T : toggle (dom u) = dom u) by (unfold toggle; now rewrite C).
  assert (S : select_all (dom u) = dom u) by (unfold select_all; rewrite C, orb_true_r; reflexivity).
  assert (X : forall d, d = dom u -> U d (show_filter u) = u) by (intros d ->; destruct u; reflexivity).
  repeat apply Forall_cons; try apply Forall_nil.
  1-6: apply X; apply M. apply X, T. apply X, S.
Qed.
(** Ctrl-C and q return the quit command; no other key does. *)
Theorem C66_only_q_and_ctrl_c_quit : forall (u : ui A) k,
  snd (handle_key u k) = true <-> key_string k = [113] \/ key_string k = [99; 116; 114; 108; 43; 99].
Proof.
  intros u k. assert (Q : snd (handle_key u k) = true <-> action_of k = Some AQuit).
  { unfold handle_key. destruct (action_of k) as [a|]; [destruct a; cbn [snd]; split; intros; (reflexivity || discriminate)|].
    destruct (_ && _); [split; intros; discriminate|]. destruct (_ && _); split; intros; discriminate. }
  rewrite Q. unfold action_of. set (s := key_string k). clearbody s. unfold bindings. cbn [lookup_last].
  destruct (list_eqb s (s_ctrl 99)) eqn:E1; [apply list_eqb_eq in E1; subst; split; auto|].
  destruct (list_eqb s [113]) eqn:E2; [apply list_eqb_eq in E2; subst; split; auto|].
  assert (N1 : s <> [113]) by (intros ->; rewrite list_eqb_refl in E2; discriminate).
  assert (N2 : s <> [99; 116; 114; 108; 43; 99]) by (intros ->; discriminate E1).
  split; [|tauto]. intros H. exfalso. revert H. repeat match goal with |- context [if list_eqb ?a ?b then _ else _] => destruct (list_eqb a b) end; discriminate.
Qed.

(* ---------- C67 ---------- *)
(** With the filter shown, an unbound character shows exactly the items matching it, Backspace all. *)
Theorem C67_typed_character_filters : forall (u : ui A) c, show_filter u = true -> action_of (rune_key c) = None ->
  filtered (dom (lstep u (OKey (rune_key c)))) = filter (fun a => filt (dom u) a [c]) (items (dom u)) /\
  filtered (dom (lstep u (OKey (plain KBackspace)))) = items (dom u).
Proof.
  intros u c F E. cbn [lstep]. assert (R : forall l : lst A, filtered (reset_focus l) = filtered l) by (intros l; unfold reset_focus; destruct (_ <=? _); reflexivity).
  split.
  - unfold handle_key. rewrite E, F. change (filtered (set_query (dom u) [c]) = filter (fun a => filt (dom u) a [c]) (items (dom u))). unfold set_query. rewrite R. reflexivity.
  - unfold handle_key. change (action_of (plain KBackspace)) with (@None laction). cbv iota. rewrite F. change (filtered (set_query (dom u) []) = items (dom u)). unfold set_query. rewrite R. reflexivity.
Qed.
End Props.

(** Concrete list of numbers; an item matches a query if it is one of its characters. *)
Definition mt (a : Z) (q : list Z) : bool := existsb (Z.eqb a) q.
Example C31_ex : let l := dom (lsteps [OHeight 3; OKey (plain KEnd); OKey (plain KUp)] (new_ui mt [1;2;3;4;5;6;7] false)) in
  foc l = 5 /\ scroll l = 4 /\ focused_item l = Some (Some 6) /\ sane_run (new_ui mt [1;2;3;4;5;6;7] false) [OHeight 3; OKey (plain KEnd); OKey (plain KUp)].
Proof. cbn. repeat split; lia. Qed.
Example C32_ex : let l := dom (lsteps [OKey (plain KSpace); OKey (plain KDown); OKey (plain KSpace); OKey (plain KDown)] (new_ui mt [1;2;3;4] false)) in
  sel l = [1; 0] /\ selected_items l = [Some 2; Some 1].
Proof. split; reflexivity. Qed.

(** A second typed character replaces the first instead of narrowing further. *)
Definition needs_all (a : list Z) (q : list Z) : bool := forallb (fun c => existsb (Z.eqb c) a) q.
Theorem C166_typing_does_not_accumulate_refuted :
  let u0 := lsteps [OShow true] (new_ui needs_all [[97; 98]; [98; 99]] false) in
  let u := lsteps [OKey (rune_key 97); OKey (rune_key 98)] u0 in
  filtered (dom u) = [[97; 98]; [98; 99]] /\ filter (fun a => needs_all a [97; 98]) (items (dom u)) = [[97; 98]].
Proof. split; reflexivity. Qed.
(** Characters bound to actions cannot be typed into the filter. *)
Theorem C167_bound_letters_not_typed_refuted :
  let u := lsteps [OShow true; OKey (rune_key 107)] (new_ui needs_all [[97]; [107]] false) in query (dom u) = [].
Proof. reflexivity. Qed.

(* ---------- C68 ---------- *)
(** Replacing the filter function while a query is active can leave the focus on no item. *)
Theorem C68_filter_replacement_refuted :
  let l := dom (lsteps [OShow true; OKey (rune_key 97); OKey (plain KEnd); OFilter (fun _ _ => false)] (new_ui needs_all [[97]; [97]; [97]] false)) in
  filtered l = [] /\ foc l = 2.
Proof. split; reflexivity. Qed.
(** It is never a crash (the focused item is then absent), and the next query repairs it. *)
Theorem C290_filter_replacement : forall (A : Type) (l : lst A) f q, ls_ok l ->
  focused_item (with_filter l f) <> None /\ ls_ok (set_query (with_filter l f) q).
Proof.
  intros A l f q K. split.
  - unfold focused_item. destruct (_ || _) eqn:E; [discriminate|]. destruct (at_in (filtered (with_filter l f)) (foc (with_filter l f))) as (a & E1 & _).
    + unfold count in E. destruct (k_foc _ K) as [F _]. change (foc (with_filter l f)) with (foc l) in *. lia.
    + rewrite E1. discriminate.
  - unfold set_query. apply reset_ok; [apply apply_filter_shown|apply K|reflexivity|apply K].
Qed.

Print Assumptions C31_focus_exists_and_is_visible. Print Assumptions C31_view_draws_the_window. Print Assumptions C32_filtering_exact. Print Assumptions C32_typing_without_filter.
Print Assumptions C32_selection_valid. Print Assumptions C32_toggle_changes_focused_only. Print Assumptions C32_select_all_and_clear. Print Assumptions C66_navigation_keys.
Print Assumptions C66_empty_list_inert. Print Assumptions C66_only_q_and_ctrl_c_quit. Print Assumptions C67_typed_character_filters. Print Assumptions C166_typing_does_not_accumulate_refuted.
Print Assumptions C167_bound_letters_not_typed_refuted. Print Assumptions C68_filter_replacement_refuted. Print Assumptions C290_filter_replacement.
