From Coq Require Import Sorted Permutation.
From Verif Require Import Prelude Utf8 KeysModel SelModel SelSpec.

Lemma at_some l i p : at_ l i = Some p -> 0 <= i < Z.of_nat (length l) /\ nth_error l (Z.to_nat i) = Some p /\ In p l.
Proof. unfold at_. destruct (_ && _) eqn:E; [|discriminate]. intros H. repeat split; auto; try lia. eapply nth_error_In; eauto. Qed.
Lemma at_in l i : 0 <= i < Z.of_nat (length l) -> exists p, at_ l i = Some p /\ nth_error l (Z.to_nat i) = Some p.
Proof. intros H. unfold at_. replace (_ && _) with true by lia. destruct (nth_error l (Z.to_nat i)) eqn:E; [eauto|]. apply nth_error_None in E. lia. Qed.
Lemma at_out l i : ~ (0 <= i < Z.of_nat (length l)) -> at_ l i = None.
Proof. intros H. unfold at_. replace (_ && _) with false by lia. reflexivity. Qed.
Lemma index_of_spec p l : In p l -> exists i, index_of p l = Some i /\ at_ l i = Some p.
Proof.
  induction l as [|x l IH]; intros I; [destruct I|]. cbn [index_of]. destruct (Z.eqb_spec x p) as [->|N].
  - exists 0. split; auto.
  - destruct I as [->|I]; [congruence|]. destruct (IH I) as (i & E & Ha). rewrite E. exists (i + 1). split; auto.
    destruct (at_some _ _ _ Ha) as (B & Hn & _). unfold at_. cbn [length]. replace (_ && _) with true by lia. replace (Z.to_nat (i + 1)) with (S (Z.to_nat i)) by lia. exact Hn.
Qed.
Lemma index_of_some p l i : index_of p l = Some i -> at_ l i = Some p.
Proof.
  intros E. assert (I : In p l).
  { revert i E. induction l as [|x l IH]; intros i E; [discriminate|]. cbn [index_of] in E. destruct (Z.eqb_spec x p) as [->|N]; [left; auto|]. destruct (index_of p l) as [j|]; [|discriminate]. right. now apply (IH j). }
  destruct (index_of_spec p l I) as (j & E2 & H). congruence.
Qed.
Lemma mem_in i s : mem i s = true <-> In i s.
Proof. unfold mem. rewrite existsb_exists. split; [intros (x & I & E); apply Z.eqb_eq in E; now subst|intros I; exists i; rewrite Z.eqb_refl; auto]. Qed.

Section P.
Context {A : Type}.
Variable heap : Z -> A.
Implicit Types s : sel A.

Lemma cursor_ok s c : sel_ok s -> 0 <= c -> (c < Z.of_nat (length (filtered s)) \/ (filtered s = [] /\ c = 0)) -> sel_ok (with_cursor s c).
Proof using. intros [K1 K2 K3 K4 K5] H1 H2. constructor; auto. Qed.
Lemma up_ok s : sel_ok s -> sel_ok (move_up s).
Proof using. intros K. apply cursor_ok; auto; destruct K as [_ [K K'] _ _ _]; destruct (0 <? cursor s) eqn:E; try lia; auto. Qed.
Lemma down_ok s : sel_ok s -> sel_ok (move_down s).
Proof using. intros K. apply cursor_ok; auto; destruct K as [_ [K K'] _ _ _]; unfold nfilt; destruct (_ <? _) eqn:E; try lia; auto. Qed.
Lemma start_ok s : sel_ok s -> sel_ok (to_start s).
Proof using. intros K. apply cursor_ok; auto; [lia|]. destruct K as [_ [K K'] _ _ _]. destruct K' as [K'|[K' _]]; [left; lia|right; auto]. Qed.
Lemma end_ok s : sel_ok s -> sel_ok (to_end s).
Proof using.
  intros K. apply cursor_ok; auto; unfold nfilt; [destruct (_ <? 0) eqn:E; lia|]. destruct K as [_ [K K'] _ _ _].
  destruct K' as [K'|[K' _]]; [left; destruct (_ <? 0) eqn:E; lia|right; rewrite K'; auto].
Qed.
Lemma choose_ok s : sel_ok s -> sel_ok (choose s).
Proof using.
  intros K. unfold choose. destruct (at_ (filtered s) (cursor s)) as [p|]; auto. destruct (index_of p (options s)) as [i|] eqn:E; auto.
  apply index_of_some, at_some in E as (B & _). destruct K as [K1 K2 K3 K4 K5]. constructor; auto.
Qed.
Lemma query_ok s q : sel_ok s -> sel_ok (set_query heap s q).
Proof using.
  intros [K1 K2 K3 K4 K5]. unfold set_query. cbv zeta. set (f := filter _ _). constructor; cbn [filtered options cursor height scroll chosen]; auto.
  - intros p I. apply filter_In in I. tauto.
  - set (n := Z.of_nat (length f)). assert (0 <= n) by lia. split; [destruct (n <=? cursor s) eqn:E; match goal with |- context [if ?b then _ else _] => destruct b eqn:? end; lia|].
    destruct (Z.eq_dec n 0) as [Z0|Z0].
    + right. split; [destruct f; auto; cbn in n; lia|]. rewrite Z0. replace (0 <=? cursor s) with true by lia. reflexivity.
    + left. destruct (n <=? cursor s) eqn:E; match goal with |- context [if ?b then _ else _] => destruct b eqn:? end; lia.
Qed.
Lemma new_sel_ok d os : sel_ok (@new_sel A d os).
Proof using. clear heap. constructor; cbn; auto; try lia. split; [lia|]. destruct os; [right; auto|left; cbn [length]; lia]. Qed.
Lemma height_ok s h : sel_ok s -> sel_ok (with_height s h).
Proof using. clear heap. intros [K1 K2 K3 K4 K5]. constructor; auto. cbn. destruct (h <? 1) eqn:E; lia. Qed.
Lemma filter_ok s f : sel_ok s -> sel_ok (with_filter s f).
Proof using. intros [K1 K2 K3 K4 K5]. constructor; auto. Qed.
Lemma input_ok (u : sui A) k : sel_ok (dom u) -> sel_ok (dom (filter_input heap u k)).
Proof using.
  intros K. unfold filter_input. destruct (filterable u); auto. destruct (ktype k); auto; try (apply query_ok; auto).
  destruct (query (dom u)); auto. apply query_ok; auto.
Qed.
Lemma sstep_ok (u : sui A) o : sel_ok (dom u) -> sel_ok (dom (sstep heap u o)).
Proof using.
  intros K. destruct o; cbn [sstep dom]; auto using height_ok, filter_ok, new_sel_ok.
  unfold handle_key. destruct (action_of k); cbn [fst dom]; auto using up_ok, down_ok, start_ok, end_ok, choose_ok, query_ok, input_ok.
Qed.
Lemma ssteps_ok os : forall u : sui A, sel_ok (dom u) -> sel_ok (dom (ssteps heap os u)).
Proof using. induction os as [|o os IH]; intros u K; [exact K|]. cbn [ssteps fold_left]. apply IH, sstep_ok, K. Qed.

Lemma adjusted_eq s : sel_ok s -> adjusted s = first_row s.
Proof using. clear heap. intros [K1 K2 K3 K4 K5]. unfold adjusted, first_row. rewrite K4. replace (cursor s <? 0) with false by lia. cbv zeta. destruct (_ <=? _) eqn:E; lia. Qed.

(* ---------- multiselect ---------- *)
Definition sn_ok (n : selection) : Prop := NoDup (idx n) /\ Forall (fun i => 0 <= i) (idx n) /\ (0 <= mx n /\ (0 < mx n -> Z.of_nat (length (idx n)) <= mx n)) /\ (0 <= mn n /\ (0 < mx n -> mn n <= mx n)).
Lemma new_sn_ok mi ma : sn_ok (new_selection mi ma).
Proof using. clear heap.
  unfold new_selection, sn_ok. cbn [idx mn mx]. split; [constructor|]. split; [constructor|].
  destruct (mi <? 0) eqn:E1; destruct (ma <? 0) eqn:E2; match goal with |- context [if ?b then _ else _] => destruct b eqn:? end; cbn [length]; lia.
Qed.
Lemma add_ok n i : sn_ok n -> sn_ok (add_one n i).
Proof using. clear heap.
  intros (K1 & K2 & K3 & K4). unfold add_one. destruct (_ && _) eqn:E; [|repeat split; tauto]. apply andb_true_iff in E as [E1 E2].
  unfold sn_ok. cbn [idx mn mx]. destruct (mem i (idx n)) eqn:M; [repeat split; tauto|].
  split; [constructor; auto; rewrite <- mem_in; now rewrite M|]. split; [constructor; auto; lia|]. split; auto. split; [tauto|]. intros H. unfold can_select, cnt in E2. cbn [length]. lia.
Qed.
Lemma with_selected_ok l : forall n, sn_ok n -> sn_ok (with_selected n l).
Proof using. induction l as [|i l IH]; intros n K; [exact K|]. cbn [with_selected fold_left]. apply IH, add_ok, K. Qed.
Lemma filter_le {B} (f : B -> bool) l : (length (filter f l) <= length l)%nat.
Proof using. induction l as [|x l IH]; cbn; [lia|]. destruct (f x); cbn; lia. Qed.
Lemma toggle_ok n i : sn_ok n -> sn_ok (toggle_idx n i).
Proof using. clear heap.
  intros (K1 & K2 & K3 & K4). unfold toggle_idx. destruct (i <? 0) eqn:E; [repeat split; tauto|]. destruct (mem i (idx n)) eqn:M.
  - unfold sn_ok. cbn [idx mn mx]. split; [apply NoDup_filter; auto|]. split; [apply Forall_forall; intros x I; apply filter_In in I as [I _]; rewrite Forall_forall in K2; auto|]. split; auto.
    split; [tauto|]. intros H. destruct K3 as [_ K3]. specialize (K3 H). pose proof (filter_le (fun j => negb (j =? i)) (idx n)). lia.
  - destruct (can_select n) eqn:C; [|repeat split; tauto]. unfold sn_ok. cbn [idx mn mx].
    split; [constructor; auto; rewrite <- mem_in; now rewrite M|]. split; [constructor; auto; lia|]. split; auto. split; [tauto|]. intros H. unfold can_select, cnt in C. cbn [length]. lia.
Qed.
Lemma clear_ok n : sn_ok n -> sn_ok (clear_idx n).
Proof using. intros (K1 & K2 & K3 & K4). unfold sn_ok, clear_idx. cbn [idx mn mx length]. split; [constructor|]. split; [constructor|]. lia. Qed.
Lemma sel_step_ok l : forall n, sn_ok n -> sn_ok (fold_left sel_step l n).
Proof using. induction l as [|i l IH]; intros n K; [exact K|]. cbn [fold_left]. apply IH. unfold sel_step. destruct (_ && _); auto using toggle_ok. Qed.

Lemma mok_iff (m : msel A) : msel_ok m <-> sel_ok (base m) /\ sn_ok (picked m).
Proof using. split; [intros [K1 K2 K3 K4 K5]; exact (conj K1 (conj K2 (conj K3 (conj K4 K5))))|intros [K1 (K2 & K3 & K4 & K5)]; constructor; assumption]. Qed.
Lemma mstep_ok (u : mui A) o : msel_ok (mdom u) -> msel_ok (mdom (mstep heap u o)).
Proof using.
  rewrite !mok_iff. intros [K N]. destruct o; cbn [mstep mdom put on_base base picked]; auto using height_ok, filter_ok, new_sel_ok, with_selected_ok, new_sn_ok.
  - assert (I : sel_ok (base (mdom (mfilter_input heap u k))) /\ sn_ok (picked (mdom (mfilter_input heap u k)))).
    { unfold mfilter_input. destruct (mfilterable u); auto. destruct (ktype k); auto; cbn [put mdom on_base base picked]; auto using query_ok.
      destruct (query (base (mdom u))); auto. cbn [put mdom on_base base picked]; auto using query_ok. }
    unfold mhandle_key. destruct (maction_of k) as [[]| | | | |]; cbn [fst put mdom on_base base picked]; auto using up_ok, down_ok, start_ok, end_ok, query_ok.
    + unfold toggle. destruct (at_ _ _); auto. destruct (index_of _ _); cbn [base picked]; auto using toggle_ok.
    + split; auto. apply sel_step_ok; auto.
    + split; auto. apply clear_ok; auto.
    + destruct (can_confirm _); auto.
  - split; auto. apply with_selected_ok, new_sn_ok.
  - split; auto. apply with_selected_ok, new_sn_ok.
Qed.
Lemma msteps_ok os : forall u : mui A, msel_ok (mdom u) -> msel_ok (mdom (msteps heap os u)).
Proof using. induction os as [|o os IH]; intros u K; [exact K|]. cbn [msteps fold_left]. apply IH, mstep_ok, K. Qed.
Lemma new_mok d : msel_ok (mdom (@new_mui A d)).
Proof using. rewrite mok_iff. split; [apply new_sel_ok|apply new_sn_ok]. Qed.

(* membership *)
Lemma toggle_mem n i j : 0 <= i -> mem j (idx (toggle_idx n i)) =
  if j =? i then (if mem i (idx n) then false else can_select n) else mem j (idx n).
Proof using. clear heap.
  intros H. unfold toggle_idx. replace (i <? 0) with false by lia. destruct (mem i (idx n)) eqn:M; cbn [idx].
  - apply eq_true_iff_eq. rewrite mem_in, filter_In. destruct (Z.eqb_spec j i) as [->|N]; [intuition discriminate|]. rewrite mem_in. intuition.
  - destruct (can_select n) eqn:C; cbn [idx].
    + unfold mem in *. cbn [existsb]. destruct (Z.eqb_spec j i) as [->|N]; auto.
    + destruct (Z.eqb_spec j i) as [->|N]; auto.
Qed.
Lemma ins_perm x l : Permutation (x :: l) (ins x l).
Proof using. induction l as [|y l IH]; cbn [ins]; auto. destruct (y <? x); auto. rewrite perm_swap. now constructor. Qed.
Lemma indices_perm n : Permutation (idx n) (indices n).
Proof using. unfold indices. induction (idx n) as [|x l IH]; cbn; auto. rewrite <- ins_perm. now constructor. Qed.
Lemma ins_sorted x l : StronglySorted Z.le l -> StronglySorted Z.le (ins x l).
Proof using. clear heap.
  induction 1 as [|y l S IH F]; cbn [ins]; [repeat constructor|]. destruct (y <? x) eqn:E.
  - constructor; auto. rewrite <- ins_perm. constructor; auto. lia.
  - constructor; [constructor; auto|]. constructor; [lia|]. eapply Forall_impl; [|exact F]. cbn. lia.
Qed.
Lemma indices_sorted n : NoDup (idx n) -> StronglySorted Z.lt (indices n).
Proof using. clear heap.
  intros N. assert (S : StronglySorted Z.le (indices n)) by (unfold indices; induction (idx n); cbn; [constructor|]; inversion N; subst; apply ins_sorted; auto).
  assert (N' : NoDup (indices n)) by (rewrite <- indices_perm; auto). induction S as [|y l S IH F]; constructor; inversion N'; subst; auto.
  rewrite Forall_forall in *. intros z I. specialize (F z I). assert (y <> z) by (intros ->; auto). lia.
Qed.
End P.
