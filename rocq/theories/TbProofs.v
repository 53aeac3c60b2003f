From Coq Require Import Permutation Sorted.
From Verif Require Import Prelude KeysModel TbModel TbSpec.

(* ---------- the comparison ---------- *)
Lemma cmp_str_anti a : forall b, cmp_str b a = - cmp_str a b.
Proof. induction a as [|x a IH]; intros [|y b]; cbn [cmp_str]; auto. destruct (x <? y) eqn:E1; destruct (y <? x) eqn:E2; auto; lia. Qed.
Lemma cmp_str_trans a : forall b c, cmp_str a b <= 0 -> cmp_str b c <= 0 -> cmp_str a c <= 0.
Proof.
  induction a as [|x a IH]; intros [|y b] [|z c]; cbn [cmp_str]; try lia. destruct (x <? y) eqn:E1; destruct (y <? x) eqn:E2; try lia; destruct (y <? z) eqn:E3; destruct (z <? y) eqn:E4; try lia;
    destruct (x <? z) eqn:E5; destruct (z <? x) eqn:E6; try lia. apply IH.
Qed.
Lemma cmp_int_anti a b : cmp_int b a = - cmp_int a b.
Proof. unfold cmp_int. destruct (a <? b) eqn:E1; destruct (b <? a) eqn:E2; auto; lia. Qed.
Lemma cmp_int_trans a b c : cmp_int a b <= 0 -> cmp_int b c <= 0 -> cmp_int a c <= 0.
Proof. unfold cmp_int. destruct (a <? b) eqn:E1; destruct (b <? a) eqn:E2; destruct (b <? c) eqn:E3; destruct (c <? b) eqn:E4; destruct (a <? c) eqn:E5; destruct (c <? a) eqn:E6; lia. Qed.
Lemma compare_anti fmt k a b : has_kind k a -> has_kind k b -> compare_ fmt b a = - compare_ fmt a b.
Proof.
  destruct k, a as [| | | |[]| |]; cbn [has_kind]; try tauto; destruct b as [| | | |[]| |]; cbn [has_kind]; try tauto; intros _ _; cbn [compare_ cmp_float]; auto using cmp_str_anti, cmp_int_anti; destruct b0; try destruct b; auto; try destruct b0; reflexivity.
Qed.
Lemma compare_trans fmt k a b c : has_kind k a -> has_kind k b -> has_kind k c -> compare_ fmt a b <= 0 -> compare_ fmt b c <= 0 -> compare_ fmt a c <= 0.
Proof.
  destruct k, a as [| | | |[]| |]; cbn [has_kind]; try tauto; destruct b as [| | | |[]| |]; cbn [has_kind]; try tauto; destruct c as [| | | |[]| |]; cbn [has_kind]; try tauto; intros _ _ _; cbn [compare_ cmp_float]; try lia; eauto using cmp_str_trans, cmp_int_trans.
  unfold cmp_bool. destruct b0, b, b1; cbn; lia.
Qed.

Lemma cmp_str_below x : forall y, cmp_str x y < 0 <-> below (CStr x) (CStr y).
Proof.
  induction x as [|a x IH]; intros [|b y]; cbn [cmp_str].
  - split; [lia|]. intros (p & [(c & r & E1 & E2)|(c & d & r & s & E1 & E2 & _)]); destruct p; discriminate.
  - split; [|lia]. intros _. exists []. left. exists b, y. auto.
  - split; [lia|]. intros (p & [(c & r & E1 & E2)|(c & d & r & s & E1 & E2 & _)]); destruct p; discriminate.
  - destruct (a <? b) eqn:E1.
    { split; [|lia]. intros _. exists []. right. exists a, b, x, y. repeat split; auto. lia. }
    destruct (b <? a) eqn:E2.
    { split; [lia|]. intros (p & [(c & r & Q1 & Q2)|(c & d & r & s & Q1 & Q2 & L)]).
      - subst p. injection Q2 as Q2 _. lia.
      - destruct p as [|h p]; cbn [app] in Q1, Q2; injection Q1 as Q1 _; injection Q2 as Q2 _; lia. }
    assert (a = b) by lia. subst b. rewrite IH. split.
    + intros (p & [(c & r & Q1 & Q2)|(c & d & r & s & Q1 & Q2 & L)]); exists (a :: p); [left; exists c, r|right; exists c, d, r, s]; subst; repeat split; auto; lia.
    + intros (p & [(c & r & Q1 & Q2)|(c & d & r & s & Q1 & Q2 & L)]).
      * subst p. cbn [app] in Q2. injection Q2 as Q2. exists x. left. exists c, r. auto.
      * destruct p as [|h p]; cbn [app] in Q1, Q2; [injection Q1 as Q1 _; injection Q2 as Q2 _; lia|].
        injection Q1 as _ Q1. injection Q2 as _ Q2. exists p. right. exists c, d, r, s. auto.
Qed.
Lemma cmp_int_lt a b : cmp_int a b < 0 <-> a < b.
Proof. unfold cmp_int. destruct (a <? b) eqn:E1; destruct (b <? a) eqn:E2; lia. Qed.
Lemma compare_below fmt k a b : has_kind k a -> has_kind k b -> (compare_ fmt a b < 0 <-> below a b).
Proof.
  destruct k, a as [| | | |[]| |]; cbn [has_kind]; try tauto; destruct b as [| | | |[]| |]; cbn [has_kind]; try tauto; intros _ _; cbn [compare_ cmp_float below]; try (split; [lia|tauto]; fail); try (split; auto; lia); try apply cmp_int_lt.
  - apply (cmp_str_below s s0).
  - unfold cmp_bool. match goal with |- context [Bool.eqb ?x ?y] => destruct x, y end; cbn; intuition (try discriminate; try lia).
Qed.

Lemma less_weak fmt rs key d : uniform rs key -> weak_order (fun x => In x rs) (less fmt key d).
Proof.
  intros [k U]. constructor.
  - intros a b Ia Ib. pose proof (compare_anti fmt k (a key) (b key) (U a Ia) (U b Ib)). destruct d; cbn [less]; lia.
  - intros a b c Ia Ib Ic. pose proof (compare_anti fmt k (a key) (b key) (U a Ia) (U b Ib)). pose proof (compare_anti fmt k (b key) (c key) (U b Ib) (U c Ic)). pose proof (compare_anti fmt k (a key) (c key) (U a Ia) (U c Ic)).
    pose proof (compare_trans fmt k _ _ _ (U a Ia) (U b Ib) (U c Ic)). pose proof (compare_trans fmt k _ _ _ (U c Ic) (U b Ib) (U a Ia)).
    destruct d; cbn [less]; lia.
Qed.

(* ---------- the contract is satisfiable: insertion sort ---------- *)
Section Ins.
Context {B : Type}.
Variable lt : B -> B -> bool.
Fixpoint insert (x : B) (l : list B) : list B :=
  match l with [] => [x] | y :: r => if lt y x then y :: insert x r else x :: y :: r end.
Definition isort (l : list B) : list B := fold_right insert [] l.
Lemma insert_perm x l : Permutation (x :: l) (insert x l).
Proof. induction l as [|y l IH]; cbn [insert]; auto. destruct (lt y x); auto. rewrite perm_swap. now constructor. Qed.
Lemma isort_perm l : Permutation l (isort l).
Proof. induction l as [|x l IH]; cbn; auto. rewrite <- insert_perm. now constructor. Qed.
Variable P : B -> Prop.
Hypothesis W : weak_order P lt.
Lemma insert_sorted x l : P x -> Forall P l -> StronglySorted (fun a b => lt b a = false) l -> StronglySorted (fun a b => lt b a = false) (insert x l).
Proof.
  intros Px F S. induction S as [|y l S IH Hy]; cbn [insert]; [repeat constructor|].
  apply Forall_cons_iff in F as [Py F]. destruct (lt y x) eqn:E.
  - constructor; [auto|]. rewrite <- insert_perm. constructor; auto. apply (wo_asym _ _ W); auto.
  - constructor; [constructor; auto|]. constructor; auto. rewrite Forall_forall in *. intros z Iz. apply (wo_neg _ _ W z y x); auto.
Qed.
Lemma insert_filter w x l : P w -> P x -> Forall P l ->
  filter (tied lt w) (insert x l) = if tied lt w x then x :: filter (tied lt w) l else filter (tied lt w) l.
Proof.
  intros Pw Px F. induction F as [|y l Py F IH]; cbn [insert filter]; [reflexivity|].
  destruct (lt y x) eqn:E; cbn [filter]; [|reflexivity]. rewrite IH. destruct (tied lt w x) eqn:T; [|reflexivity].
  destruct (tied lt w y) eqn:T2; [|reflexivity]. exfalso. unfold tied in *.
  assert (lt y x = false); [|congruence]. apply (wo_neg _ _ W y w x); auto; [destruct (lt y w); auto; rewrite andb_false_r in T2; discriminate|destruct (lt w x); auto; discriminate].
Qed.
Lemma isort_stable l : Forall P l -> StronglySorted (fun a b => lt b a = false) (isort l) /\ forall w, P w -> filter (tied lt w) (isort l) = filter (tied lt w) l.
Proof.
  induction 1 as [|x l Px F [S1 S2]]; cbn; [split; [constructor|auto]|].
  assert (F' : Forall P (isort l)) by (rewrite <- isort_perm; auto).
  split; [apply insert_sorted; auto|]. intros w Pw. rewrite insert_filter by auto. now rewrite S2.
Qed.
End Ins.
Lemma isort_contract : sort_contract (@isort row).
Proof.
  split; [intros; apply isort_perm|]. intros lt l W. destruct (isort_stable lt _ W l) as [A B]; [apply Forall_forall; auto|].
  constructor; auto using isort_perm.
Qed.
(** The contract fixes the result: two stable sorts of the same list agree. *)
Lemma filter_all {B} (f : B -> bool) (l : list B) : (forall x, In x l -> f x = false) -> filter f l = [].
Proof. induction l as [|a l IH]; intros H; cbn; auto. rewrite (H a) by (left; auto). apply IH. intros; apply H; now right. Qed.
Lemma stable_unique {B} (lt : B -> B -> bool) (P : B -> Prop) : weak_order P lt -> forall l1 l2, Forall P l1 -> Permutation l1 l2 ->
  StronglySorted (fun a b => lt b a = false) l1 -> StronglySorted (fun a b => lt b a = false) l2 ->
  (forall x, In x l1 -> filter (tied lt x) l1 = filter (tied lt x) l2) -> l1 = l2.
Proof.
  intros W. assert (R : forall x, P x -> tied lt x x = true).
  { intros x Px. unfold tied. destruct (lt x x) eqn:E; auto. pose proof (wo_asym _ _ W x x Px Px E). congruence. }
  induction l1 as [|a l1 IH]; intros l2 F Pm S1 S2 St; [apply Permutation_nil in Pm; now subst|].
  destruct l2 as [|b l2]; [apply Permutation_sym, Permutation_nil in Pm; discriminate|].
  apply Forall_cons_iff in F as [Pa F]. inversion S1 as [|? ? S1' H1]; inversion S2 as [|? ? S2' H2]; subst.
  assert (Fb : Forall P (b :: l2)) by (rewrite <- Pm; constructor; auto). apply Forall_cons_iff in Fb as [Pb F2].
  assert (Tb : tied lt a b = true).
  { unfold tied. assert (A1 : lt b a = false).
    { assert (I : In b (a :: l1)) by (rewrite Pm; left; auto). destruct I as [->|I]; [|rewrite Forall_forall in H1; auto]. specialize (R b Pb). unfold tied in R. destruct (lt b b); auto. }
    assert (A2 : lt a b = false).
    { assert (I : In a (b :: l2)) by (rewrite <- Pm; left; auto). destruct I as [->|I]; [auto|rewrite Forall_forall in H2; auto]. }
    now rewrite A1, A2. }
  assert (E : a = b).
  { pose proof (St a (or_introl eq_refl)) as Q. cbn [filter] in Q. rewrite (R a Pa), Tb in Q. now injection Q. }
  subst b. f_equal. apply IH; auto.
  - apply Permutation_cons_inv in Pm; auto.
  - intros x Ix. specialize (St x (or_intror Ix)). cbn [filter] in St. destruct (tied lt x a); [now injection St|auto].
Qed.
Lemma stable_sorted_unique {B} (lt : B -> B -> bool) l l1 l2 : weak_order (fun x => In x l) lt -> stable_sorted lt l l1 -> stable_sorted lt l l2 -> l1 = l2.
Proof.
  intros W [P1 O1 S1] [P2 O2 S2]. eapply stable_unique; eauto.
  - apply Forall_forall. intros x I. now rewrite P1.
  - now rewrite <- P1.
  - intros x I. assert (In x l) by (now rewrite P1). rewrite S1, S2; auto.
Qed.

(* ---------- navigation ---------- *)
Definition tvalid (t : table) : Prop :=
  Permutation (rows t) (effective t) /\ 0 <= tsel t /\ (tsel t < nrows t \/ (nrows t = 0 /\ tsel t = 0)).
Definition tseen (t : table) : Prop := 1 <= vis t /\ 0 <= tscroll t <= tsel t /\ tsel t < tscroll t + vis t.

Lemma move_up_pos t : tsel (move_up t) = if tsel t <=? 0 then tsel t else tsel t - 1.
Proof. unfold move_up. destruct (_ <=? 0); reflexivity. Qed.
Lemma move_down_pos t : tsel (move_down t) = if nrows t - 1 <=? tsel t then tsel t else tsel t + 1.
Proof. unfold move_down. destruct (_ <=? _); reflexivity. Qed.
Lemma up_frame t : effective (move_up t) = effective t /\ rows (move_up t) = rows t /\ vis (move_up t) = vis t /\ columns (move_up t) = columns t /\ sdir (move_up t) = sdir t /\ skey (move_up t) = skey t.
Proof. unfold move_up. destruct (_ <=? _); repeat split. Qed.
Lemma down_frame t : effective (move_down t) = effective t /\ rows (move_down t) = rows t /\ vis (move_down t) = vis t /\ columns (move_down t) = columns t /\ sdir (move_down t) = sdir t /\ skey (move_down t) = skey t.
Proof. unfold move_down. destruct (_ <=? _); repeat split. Qed.
Lemma up_valid t : tvalid t -> tvalid (move_up t).
Proof. intros (A & B & C). unfold tvalid, nrows in *. destruct (up_frame t) as (E & F & _). rewrite E, F, move_up_pos. destruct (_ <=? 0) eqn:Q; split; auto; lia. Qed.
Lemma down_valid t : tvalid t -> tvalid (move_down t).
Proof. intros (A & B & C). unfold tvalid in *. destruct (down_frame t) as (E & F & _). unfold nrows in *. rewrite E, F, move_down_pos. unfold nrows. destruct (_ <=? _) eqn:Q; split; auto; lia. Qed.
Lemma up_seen t : tseen t -> tseen (move_up t).
Proof. unfold tseen. intros (A & B & C). unfold move_up. destruct (tsel t <=? 0) eqn:Q; auto. cbv zeta. cbn [tsel tscroll set_pos]. change (vis (set_pos t _ _)) with (vis t). destruct (tsel t - 1 <? tscroll t) eqn:Q2; lia. Qed.
Lemma down_seen t : tseen t -> tseen (move_down t).
Proof. unfold tseen. intros (A & B & C). unfold move_down. destruct (_ <=? tsel t) eqn:Q; auto. cbv zeta. cbn [tsel tscroll set_pos]. change (vis (set_pos t _ _)) with (vis t). destruct (_ <=? tsel t + 1) eqn:Q2; lia. Qed.

Lemma page_up_ind (Q : table -> Prop) : (forall t, Q t -> Q (move_up t)) -> forall n t, Q t -> Q (page_up_loop n t).
Proof. intros H. induction n as [|n IH]; intros t Ht; cbn; auto. destruct (0 <? tsel t); auto. Qed.
Lemma page_down_ind (Q : table -> Prop) m : (forall t, Q t -> Q (move_down t)) -> forall n t, Q t -> Q (page_down_loop n m t).
Proof. intros H. induction n as [|n IH]; intros t Ht; cbn; auto. destruct (tsel t <? m); auto. Qed.
Lemma page_up_pos n : forall t, 0 <= tsel t -> tsel (page_up_loop n t) = Z.max 0 (tsel t - Z.of_nat n).
Proof.
  induction n as [|n IH]; intros t H; cbn [page_up_loop]; [lia|]. destruct (0 <? tsel t) eqn:E; [|lia].
  rewrite IH; rewrite move_up_pos; replace (tsel t <=? 0) with false by lia; lia.
Qed.
Lemma page_down_pos n m : forall t, nrows t - 1 = m -> tsel t <= Z.max 0 m -> 0 <= tsel t -> tsel (page_down_loop n m t) = Z.max 0 (Z.min m (tsel t + Z.of_nat n)) \/ (m < 0 /\ tsel (page_down_loop n m t) = tsel t).
Proof.
  induction n as [|n IH]; intros t M H H0; cbn [page_down_loop]; [lia|]. destruct (tsel t <? m) eqn:E; [|lia].
  destruct (down_frame t) as (E1 & _). assert (M' : nrows (move_down t) - 1 = m) by (unfold nrows in *; now rewrite E1).
  assert (S : tsel (move_down t) = tsel t + 1) by (rewrite move_down_pos; replace (_ <=? tsel t) with false by lia; reflexivity).
  destruct (IH (move_down t) M') as [R|R]; rewrite ?S in *; try lia.
Qed.

Section S.
Variable fmt : cell -> list Z.
Variable sorter : (row -> row -> bool) -> list row -> list row.
Hypothesis C : sort_contract sorter.
Lemma sort_perm rs k d : Permutation rs (sort_rows fmt sorter rs k d).
Proof. unfold sort_rows. destruct d; auto; destruct rs; auto; apply (proj1 C). Qed.
Lemma nrows_rows t : tvalid t -> nrows t = Z.of_nat (length (rows t)).
Proof. intros (P & _). unfold nrows. now rewrite (Permutation_length P). Qed.
Lemma tstep_valid t o : tvalid t -> tvalid (tstep fmt sorter t o).
Proof.
  intros V. pose proof V as (A & B & D). destruct o; cbn [tstep]; auto.
  - unfold on_key. repeat match goal with |- context [if ?b then _ else _] => destruct b end; auto using up_valid, down_valid.
    + split; auto. change (nrows (to_start t)) with (nrows t). cbn. lia.
    + unfold to_end. split; auto. cbv zeta. change (nrows (set_pos t _ _)) with (nrows t). cbn [tsel set_pos]. destruct (nrows t - 1 <? 0) eqn:Q; lia.
    + unfold page_up; apply page_up_ind; auto using up_valid.
    + unfold page_down; apply page_down_ind; auto using down_valid.
    + split; [apply Permutation_refl|]. rewrite (nrows_rows t V) in D. unfold nrows, clear_sort, effective. cbn [sorted rows tsel]. lia.
  - split; [apply Permutation_refl|]. unfold nrows, with_rows, effective; cbn; lia.
  - unfold sort_by_column. destruct (find _ _) as [c|]; auto. destruct (sortable c); auto. split; [apply sort_perm|]. unfold nrows, sort_by, effective. cbn. lia.
  - split; [apply Permutation_refl|]. rewrite (nrows_rows t V) in D. unfold nrows, clear_sort, effective. cbn [sorted rows tsel]. lia.
Qed.
Lemma new_valid cols : tvalid (new_table cols).
Proof. split; [apply Permutation_refl|]. cbn. lia. Qed.
Lemma tsteps_valid os : forall t, tvalid t -> tvalid (tsteps fmt sorter os t).
Proof. induction os as [|o os IH]; intros t V; [exact V|]. cbn [tsteps fold_left]. apply IH, tstep_valid, V. Qed.
Lemma tstep_seen t o : tvalid t -> tseen t -> tsane t o -> tseen (tstep fmt sorter t o).
Proof.
  intros V S N. pose proof S as (A & B & D). destruct o; cbn [tstep]; auto.
  - unfold on_key. repeat match goal with |- context [if ?b then _ else _] => destruct b end; auto using up_seen, down_seen.
    + split; auto. cbn. change (vis (to_start t)) with (vis t). lia.
    + unfold to_end. split; auto. cbv zeta. change (vis (set_pos t _ _)) with (vis t). cbn [tsel tscroll set_pos]. destruct (nrows t - 1 <? 0) eqn:Q; match goal with |- context [if ?b then _ else _] => destruct b eqn:? end; lia.
    + unfold page_up; apply page_up_ind; auto using up_seen.
    + unfold page_down; apply page_down_ind; auto using down_seen.
  - destruct N as (N1 & N2 & N3). unfold tseen, vis, with_height. cbn [header theight tsel tscroll]. rewrite N1, N2. lia.
  - destruct N as (N1 & N2 & N3). unfold tseen, vis, with_header. cbn [header theight tsel tscroll]. rewrite N1, N2. lia.
  - unfold tseen, vis, with_rows in *. cbn [header theight tsel tscroll]. lia.
  - unfold sort_by_column. destruct (find _ _) as [c|]; auto. destruct (sortable c); auto. unfold tseen, vis, sort_by in *. cbn [header theight tsel tscroll]. lia.
Qed.
Lemma tsteps_seen os : forall t, tvalid t -> tseen t -> tsane_run fmt sorter t os -> tseen (tsteps fmt sorter os t).
Proof. induction os as [|o os IH]; intros t V S N; [exact S|]. destruct N as [N1 N2]. cbn [tsteps fold_left]. apply IH; auto using tstep_valid, tstep_seen. Qed.
End S.

Lemma visible_exact t : tvalid t -> tseen t -> visible_rows t = Some (firstn (Z.to_nat (vis t)) (skipn (Z.to_nat (tscroll t)) (effective t))).
Proof.
  intros (A & B & D) (S1 & S2 & S3). unfold visible_rows. cbv zeta. unfold nrows in *.
  destruct (_ <=? tscroll t) eqn:E.
  - f_equal. rewrite skipn_all2 by lia. now rewrite firstn_nil.
  - destruct (_ <? tscroll t + vis t) eqn:E2; (replace (_ && _) with true by lia); f_equal.
    + rewrite !firstn_all2; auto; rewrite skipn_length; lia.
    + f_equal. lia.
Qed.

(* ---------- cells ---------- *)
Lemma format_length text w a : 0 <= w -> exists c, format_cell text w a = Some c /\ Z.of_nat (length c) = w.
Proof.
  intros W. unfold format_cell, spaces. destruct (w <? _) eqn:E; [destruct (3 <? w) eqn:E3|].
  - rewrite app_length, firstn_length. replace (_ <=? 0) with true by (cbn [length]; lia). eexists. split; [reflexivity|]. rewrite app_length, firstn_length. cbn [length]. lia.
  - replace (w <? 0) with false by lia. rewrite firstn_length. replace (_ <=? 0) with true by lia. eexists. split; [reflexivity|]. rewrite firstn_length. lia.
  - destruct (_ <=? 0) eqn:E2; [eexists; split; [reflexivity|lia]|]. destruct a; (eexists; split; [reflexivity|]).
    + rewrite app_length, repeat_length. lia.
    + rewrite !app_length, !repeat_length. rewrite Z.quot_div_nonneg by lia. Z.div_mod_to_equations; lia.
    + rewrite app_length, repeat_length. lia.
Qed.
Definition line_len (cols : list column) : Z := fold_right (fun c a => cwidth c + a) 0 cols + Z.max 0 (Z.of_nat (length cols) - 1).
Lemma join_len cs sep : Z.of_nat (length (join_cells cs sep)) = fold_right (fun c a => Z.of_nat (length c) + a) 0 cs + Z.max 0 (Z.of_nat (length cs) - 1).
Proof.
  induction cs as [|c [|d r] IH]; [reflexivity|cbn [join_cells fold_right length]; lia|]. change (join_cells (c :: d :: r) sep) with (c ++ sep :: join_cells (d :: r) sep).
  rewrite app_length. cbn [length fold_right] in *. lia.
Qed.
Lemma seq_opt_map {A B} (f : A -> option B) (Q : A -> B -> Prop) l : (forall a, In a l -> exists b, f a = Some b /\ Q a b) -> exists bs, seq_opt (map f l) = Some bs /\ Forall2 Q l bs.
Proof.
  induction l as [|a l IH]; intros H; cbn; [exists []; auto|]. destruct (H a (or_introl eq_refl)) as (b & E & Qb). destruct IH as (bs & E2 & F); [intros; apply H; now right|].
  rewrite E, E2. eauto.
Qed.
Lemma f2_len cols cs : Forall2 (fun c (x : list Z) => Z.of_nat (length x) = cwidth c) cols cs ->
  fold_right (fun c a => Z.of_nat (length c) + a) 0 cs + Z.max 0 (Z.of_nat (length cs) - 1) = line_len cols.
Proof.
  intros F. unfold line_len. assert (E : length cols = length cs) by (induction F; cbn; auto). rewrite E. f_equal. clear E. induction F; cbn; lia.
Qed.
