(** C313, C314: what the rows of a list tell. Models: LsRowModel, LsModel. *)
From Verif Require Import Prelude KeysModel LsModel LsSpec LsProofs LsProps LsViewProps LsRowModel.

(** ** Specification *)
Definition check : list Z := [10003; 32].  (* a check mark and a blank *)
Definition arrow : list Z := [62; 32].     (* "> " *)
Definition none_ : list Z := [32; 32].

Section Rows.
Context {A : Type}.
Variable dflt : A -> list Z -> bool.
Variable label : A -> list Z.

(** ** C313 *)
(** The view consists of the rows of a window of the shown items, each the item's label behind its mark: the focused
    item, and no other, has the arrow; the others have the check mark exactly if they are selected. *)
Theorem C313_rows : forall its one os, sane_run (new_ui dflt its one) os ->
  let l := dom (lsteps os (new_ui dflt its one)) in
  exists rows, render_visible (default_row label) l = Some rows /\
    length rows = Z.to_nat (Z.min (height l) (size_of l)) /\
    forall j row, nth_error rows j = Some row ->
      exists a, let i := scroll l + Z.of_nat j in
        nth_error (shown l) (Z.to_nat i) = Some a /\
        row = Some ((if i =? foc l then arrow else if in_dec Z.eq_dec i (sel l) then check else none_) ++ label a).
Proof.
  intros its one os S l. pose proof (lsteps_ok os _ (new_ok dflt its one) S) as K. fold l in K.
  pose proof (k_h _ K) as Hh. destruct (k_scroll _ K) as [Sc _]. pose proof (size_nonneg l) as Hn. unfold render_visible. rewrite (count_size _ (k_shown _ K)).
  destruct (size_of l =? 0) eqn:E0.
  - exists []. split; [reflexivity|]. split; [cbn [length]; lia|]. intros j row Hj. destruct j; discriminate.
  - replace (size_of l <=? scroll l) with false by lia. cbv zeta. set (e := if size_of l <? _ then _ else _).
    assert (He : e - scroll l = Z.min (height l) (size_of l)) by (subst e; destruct (size_of l <? scroll l + height l) eqn:Q; lia).
    replace (e - scroll l <? 0) with false by lia. eexists. split; [reflexivity|]. rewrite map_length, seq_length, He. split; [reflexivity|].
    intros j row Hj. assert (Lj : (j < Z.to_nat (Z.min (height l) (size_of l)))%nat).
    { apply (f_equal (fun o => match o with Some _ => true | None => false end)) in Hj. destruct (le_lt_dec (Z.to_nat (Z.min (height l) (size_of l))) j) as [Hl|]; [|assumption].
      exfalso. rewrite (proj2 (nth_error_None _ j)) in Hj by (rewrite map_length, seq_length, <- ?He; lia). discriminate. }
    rewrite nth_error_map, (nth_error_nth' _ 0%nat) in Hj by (rewrite seq_length, <- ?He; lia). rewrite seq_nth in Hj by lia. cbn [option_map Nat.add] in Hj.
    apply some_inj in Hj. subst row. set (i := scroll l + Z.of_nat j).
    assert (Hi : 0 <= i < size_of l) by (subst i; lia). unfold render_item, at_. rewrite (count_size _ (k_shown _ K)).
    replace (i <? 0) with false by lia. replace (size_of l <=? i) with false by lia. cbn [orb]. rewrite (k_shown _ K).
    destruct (nth_error (shown l) (Z.to_nat i)) as [a|] eqn:Ea.
    2: { apply nth_error_None in Ea. unfold size_of in Hi. lia. }
    exists a. cbv zeta. fold i. split; [reflexivity|]. unfold default_row, mem. f_equal. f_equal. destruct (i =? foc l); [reflexivity|].
    destruct (in_dec Z.eq_dec i (sel l)) as [Hin|Hin].
    + replace (existsb (Z.eqb i) (sel l)) with true; [reflexivity|]. symmetry. apply existsb_exists. exists i. split; [exact Hin|lia].
    + destruct (existsb (Z.eqb i) (sel l)) eqn:Ex; [|reflexivity]. apply existsb_exists in Ex as (k & Hk & Ek). exfalso. apply Hin. replace i with k by lia. exact Hk.
Qed.
End Rows.
Example C313_case : exists os, sane_run (new_ui (fun _ _ => true) [97; 98; 99] false) os /\
  render_visible (default_row (fun c => [c])) (dom (lsteps os (new_ui (fun _ _ => true) [97; 98; 99] false))) = Some [Some [10003; 32; 97]; Some [62; 32; 98]; Some [32; 32; 99]].
Proof. exists [OKey (plain KSpace); OKey (plain KDown)]. split; [repeat constructor|]. reflexivity. Qed.

(** ** C314 *)
(** Refuted: the arrow hides the check mark. Space on the focused item selects it and the view stays the same. *)
Theorem C314_selection_visible_refuted : forall one, let u := new_ui (fun _ _ => true) [97; 98] one in let u' := lstep u (OKey (plain KSpace)) in
  sel (dom u) = [] /\ sel (dom u') = [0] /\
  view_rows (default_row (fun c => [c])) (dom u') (show_filter u') = view_rows (default_row (fun c => [c])) (dom u) (show_filter u).
Proof. intros [|]; repeat split. Qed.

Print Assumptions C313_rows. Print Assumptions C314_selection_visible_refuted.
