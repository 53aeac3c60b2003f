From Verif Require Import Prelude KeysModel LsModel LsSpec.

Section P.
Context {A : Type}.
Implicit Types l : lst A.

Lemma count_size l : filtered l = shown l -> count l = size_of l.
Proof. unfold count, size_of. now intros ->. Qed.
Lemma size_nonneg l : 0 <= size_of l. Proof. unfold size_of. lia. Qed.
Lemma calc_bounds f h n : 1 <= h -> 0 <= n -> 0 <= calc_scroll f h n <= Z.max 0 (n - h).
Proof. intros H N. unfold calc_scroll. repeat match goal with |- context [if ?b then _ else _] => destruct b eqn:? end; cbv zeta; repeat match goal with |- context [if ?b then _ else _] => destruct b eqn:? end; lia. Qed.
Lemma calc_shows f h n : 1 <= h -> 0 <= f < n -> calc_scroll f h n <= f < calc_scroll f h n + h.
Proof.
  intros H F. unfold calc_scroll. rewrite Z.quot_div_nonneg by lia. assert (D : 0 <= h / 2 < h) by (Z.div_mod_to_equations; lia).
  destruct ((n =? 0) || (h <=? 0)) eqn:E; [lia|]. destruct (n <=? h) eqn:E1; [lia|]. cbv zeta.
  destruct (f - h / 2 <? 0) eqn:E2; [Z.div_mod_to_equations; lia|]. destruct (n - h <? f - h / 2) eqn:E3; lia.
Qed.

Lemma rescroll_ok l : filtered l = shown l -> 0 <= foc l /\ (foc l < size_of l \/ (size_of l = 0 /\ foc l = 0)) ->
  Forall (fun i => 0 <= i < size_of l) (sel l) /\ NoDup (sel l) -> (single l = true -> (length (sel l) <= 1)%nat) -> 1 <= height l -> ls_ok (rescroll l).
Proof.
  intros E F S1 S2 H. constructor; auto. change (size_of (rescroll l)) with (size_of l). unfold rescroll. cbn [scroll height foc]. rewrite (count_size _ E).
  split; [apply calc_bounds; auto; apply size_nonneg|]. intros L. apply calc_shows; auto. lia.
Qed.
Lemma move_ok l i : ls_ok l -> 0 <= i < size_of l \/ size_of l = 0 -> ls_ok (move l i).
Proof.
  intros K Hi. unfold move. pose proof (size_nonneg l). rewrite (count_size _ (k_shown _ K)). destruct (size_of l =? 0) eqn:E; auto.
  apply rescroll_ok; change (size_of (set_foc l i)) with (size_of l); cbn [set_foc foc sel single height filtered]; try apply K. lia.
Qed.
Lemma shown_filter l : filter_items (items l) (query l) (filt l) = shown l.
Proof. unfold filter_items, shown. destruct (query l); auto. Qed.
Lemma apply_filter_shown l : filtered (apply_filter l) = shown (apply_filter l).
Proof. unfold apply_filter at 1. cbn [filtered]. rewrite shown_filter. reflexivity. Qed.
Lemma reset_ok l : filtered l = shown l -> 0 <= foc l -> sel l = [] -> 1 <= height l -> ls_ok (reset_focus l).
Proof.
  intros E F S H. unfold reset_focus. rewrite (count_size _ E). pose proof (size_nonneg l). destruct (size_of l <=? foc l) eqn:C; apply rescroll_ok;
    change (size_of (set_foc l 0)) with (size_of l); cbn [set_foc foc sel single height filtered]; auto; rewrite ?S; try (split; constructor); cbn; lia.
Qed.
Lemma set_query_ok l q : ls_ok l -> ls_ok (set_query l q).
Proof. intros K. unfold set_query. apply reset_ok; [apply apply_filter_shown|apply K|reflexivity|apply K]. Qed.

Lemma set_sel_ok l s : ls_ok l -> Forall (fun i => 0 <= i < size_of l) s -> NoDup s -> (single l = true -> (length s <= 1)%nat) -> ls_ok (set_sel l s).
Proof. intros [K1 K2 K3 K4 K5 K6] F N S. constructor; auto. Qed.
Lemma mem_in i s : mem i s = true <-> In i s.
Proof. unfold mem. rewrite existsb_exists. split; [intros (x & I & E); apply Z.eqb_eq in E; now subst|intros I; exists i; rewrite Z.eqb_refl; auto]. Qed.
Lemma toggle_ok l : ls_ok l -> ls_ok (toggle l).
Proof.
  intros K. unfold toggle. rewrite (count_size _ (k_shown _ K)). destruct (size_of l =? 0) eqn:E; auto.
  assert (F : 0 <= foc l < size_of l) by (destruct (k_foc _ K); lia). destruct (k_sel _ K) as [S1 S2].
  destruct (single l) eqn:O; [apply set_sel_ok; auto; repeat constructor; cbn; tauto || lia|].
  destruct (mem (foc l) (sel l)) eqn:M; apply set_sel_ok; auto; try (rewrite O; discriminate).
  - apply Forall_forall. intros x I. apply filter_In in I as [I _]. rewrite Forall_forall in S1. auto.
  - apply NoDup_filter; auto.
  - constructor; auto. rewrite <- mem_in. now rewrite M.
Qed.
Lemma select_all_ok l : ls_ok l -> ls_ok (select_all l).
Proof.
  intros K. unfold select_all. destruct (_ || _) eqn:E; auto. apply set_sel_ok; auto.
  - apply Forall_forall. intros x I. apply in_map_iff in I as (n & <- & I). apply in_seq in I. rewrite <- (count_size _ (k_shown _ K)). unfold count. lia.
  - apply FinFun.Injective_map_NoDup; [intros a b; lia|apply seq_NoDup].
  - intros S. now rewrite S in E.
Qed.
Lemma nav_ranges f h n : 0 <= f < n \/ (n = 0 /\ f = 0) -> 1 <= h ->
  (0 <= nav_up f n < n \/ n = 0) /\ (0 <= nav_down f n < n \/ n = 0) /\ (0 <= nav_pgup f h n < n \/ n = 0) /\ (0 <= nav_pgdn f h n < n \/ n = 0) /\ (0 <= nav_end n < n \/ n = 0).
Proof. intros F H. unfold nav_up, nav_down, nav_pgup, nav_pgdn, nav_end. repeat match goal with |- context [if ?b then _ else _] => destruct b eqn:? end; lia. Qed.

Lemma lstep_ok (u : ui A) o : ls_ok (dom u) -> sane u o -> ls_ok (dom (lstep u o)).
Proof.
  intros K S. destruct o; cbn [lstep dom].
  - assert (Q : forall q, ls_ok (set_query (dom u) q)) by (intros; apply set_query_ok; auto).
    destruct (nav_ranges (foc (dom u)) (height (dom u)) (size_of (dom u))) as (R1 & R2 & R3 & R4 & R5); [destruct (k_foc _ K); lia|apply K|].
    unfold handle_key. destruct (action_of k) as [a|].
    + destruct a; cbn [fst dom]; auto using toggle_ok, select_all_ok;
        unfold move_up, move_down, page_up, page_down, to_start, to_end; rewrite ?(count_size _ (k_shown _ K)); try (apply move_ok; auto; fail).
      * apply move_ok; auto. pose proof (size_nonneg (dom u)). lia.
      * apply set_sel_ok; auto; cbn; try constructor; lia.
    + destruct (_ && _); [apply Q|]. destruct (_ && _); [apply Q|exact K].
  - cbn in S. unfold with_height. destruct K as [K1 K2 K3 K4 K5 K6]. apply rescroll_ok; auto.
  - cbn in S. destruct K as [K1 K2 K3 K4 K5 K6]. unfold with_filter. set (l1 := L _ _ _ _ _ f _ _ _).
    assert (E : shown (apply_filter l1) = shown (dom u)) by (unfold shown, apply_filter, l1; cbn [query items filt]; rewrite S; reflexivity).
    assert (Z1 : size_of (apply_filter l1) = size_of (dom u)) by (unfold size_of; now rewrite E).
    constructor; rewrite ?Z1; unfold l1; cbn [apply_filter sel single foc height scroll]; auto; try (split; constructor); cbn; try lia.
    apply (apply_filter_shown l1).
  - exact K.
Qed.
Lemma lsteps_ok os : forall u : ui A, ls_ok (dom u) -> sane_run u os -> ls_ok (dom (lsteps os u)).
Proof. induction os as [|o os IH]; intros u K S; [exact K|]. destruct S as [S1 S2]. cbn [lsteps fold_left]. apply IH; auto. apply lstep_ok; auto. Qed.
Lemma new_ok (d : A -> list Z -> bool) its o : ls_ok (dom (new_ui d its o)).
Proof. unfold new_ui, new_list. cbn [dom]. apply reset_ok; [apply apply_filter_shown|cbn; lia|reflexivity|cbn; lia]. Qed.

Lemma at_in {B} (x : list B) i : 0 <= i < Z.of_nat (length x) -> exists b, at_ x i = Some b /\ nth_error x (Z.to_nat i) = Some b.
Proof.
  intros H. unfold at_. replace (i <? 0) with false by lia. destruct (nth_error x (Z.to_nat i)) eqn:E; [eauto|]. apply nth_error_None in E. lia.
Qed.
End P.
