From Verif Require Import Prelude CmdModel CmdSpec.

Lemma keep_spec {C} (l : list (option C)) : map Some (keep l) = filter (fun o => match o with Some _ => true | None => false end) l.
Proof. induction l as [|[c|] l IH]; cbn; auto. now rewrite IH. Qed.

Record binv (n : nat) (s : bst) : Prop := Binv {
  b_nd : NoDup (todo s);
  b_ids : Permutation (map fst (runs s) ++ todo s) (seq 0 n);
  b_res : map snd (runs s) = got s ++ chan s }.

Lemma remove_perm i : forall l, NoDup l -> In i l -> Permutation l (i :: remove Nat.eq_dec i l).
Proof.
  induction l as [|x l IH]; intros Hn Hi; [destruct Hi|]. inversion Hn; subst. cbn. destruct (Nat.eq_dec i x).
  - subst x. rewrite notin_remove by auto. auto.
  - destruct Hi as [->|Hi]; [congruence|]. rewrite perm_swap. constructor. auto.
Qed.
Lemma remove_nodup i l : NoDup l -> NoDup (remove Nat.eq_dec i l).
Proof.
  induction 1; cbn; [constructor|]. destruct (Nat.eq_dec i x); auto. constructor; auto.
  intros H'. apply in_remove in H'. tauto.
Qed.

Lemma binv_step n s l s' : binv n s -> bstep n s l = Some s' -> binv n s'.
Proof.
  intros [N I R] H. destruct l as [i r|]; cbn [bstep] in H.
  - destruct (existsb (Nat.eqb i) (todo s)) eqn:E; cbn [andb] in H; [|discriminate].
    destruct (length (chan s) <? n)%nat; [|discriminate]. apply some_inj in H. subst s'.
    apply existsb_exists in E as (x & Hx & Ex). apply Nat.eqb_eq in Ex. subst x.
    constructor; cbn.
    + apply remove_nodup; auto.
    + rewrite map_app. cbn. rewrite <- app_assoc. cbn. rewrite <- I. apply Permutation_app_head.
      symmetry. apply remove_perm; auto.
    + rewrite map_app, R. cbn. now rewrite app_assoc.
  - destruct (chan s) as [|r q] eqn:E; [discriminate|]. destruct (length (got s) <? n)%nat; [|discriminate].
    apply some_inj in H. subst s'. constructor; cbn; auto. rewrite R, <- app_assoc. reflexivity.
Qed.
Lemma binv_steps n ls : forall s s', binv n s -> bsteps n s ls = Some s' -> binv n s'.
Proof.
  induction ls as [|l ls IH]; intros s s' Hi H; cbn in H.
  - apply some_inj in H. now subst.
  - destruct (bstep n s l) eqn:E; [|discriminate]. eapply IH; [|eauto]. eapply binv_step; eauto.
Qed.
Lemma binv_start n : binv n (bstart n).
Proof. constructor; cbn; auto. apply seq_NoDup. Qed.

Lemma binv_len n s : binv n s -> (length (got s) + length (chan s) + length (todo s) = n)%nat.
Proof.
  intros [N I R]. pose proof (Permutation_length I). rewrite app_length, map_length, seq_length in H.
  assert (length (runs s) = length (got s) + length (chan s))%nat by (rewrite <- (map_length snd), R, app_length; auto).
  lia.
Qed.

Lemma batch_done n ls s : bsteps n (bstart n) ls = Some s -> bdone n s ->
  Permutation (map fst (runs s)) (seq 0 n) /\ got s = map snd (runs s) /\ todo s = [] /\ chan s = [].
Proof.
  intros H Hd. pose proof (binv_steps n ls _ _ (binv_start n) H) as Hi. pose proof (binv_len n s Hi).
  unfold bdone in Hd. destruct Hi as [N I R].
  destruct (chan s); [|cbn in *; lia]. destruct (todo s); [|cbn in *; lia].
  rewrite app_nil_r in *. auto.
Qed.

Lemma batch_progress n ls s : bsteps n (bstart n) ls = Some s -> ~ bdone n s ->
  (exists s', bstep n s BCollect = Some s') \/ exists i, In i (todo s).
Proof.
  intros H Hd. pose proof (binv_steps n ls _ _ (binv_start n) H) as Hi. pose proof (binv_len n s Hi). unfold bdone in Hd.
  cbn [bstep]. destruct (chan s) as [|r q] eqn:E.
  - right. destruct (todo s) as [|i t]; [cbn in *; lia|]. exists i. left; auto.
  - left. cbn [length] in *. replace (length (got s) <? n)%nat with true by (symmetry; apply Nat.ltb_lt; lia). eauto.
Qed.

(** Every command still to run may run at once: nobody waits for the collector. *)
Lemma batch_no_wait n ls s i r : bsteps n (bstart n) ls = Some s -> In i (todo s) -> exists s', bstep n s (BExec i r) = Some s'.
Proof.
  intros H Hin. pose proof (binv_steps n ls _ _ (binv_start n) H) as Hi. pose proof (binv_len n s Hi). cbn [bstep].
  replace (existsb (Nat.eqb i) (todo s)) with true
    by (symmetry; apply existsb_exists; exists i; split; auto; apply Nat.eqb_refl).
  assert (length (todo s) > 0)%nat by (destruct (todo s); [destruct Hin|cbn; lia]).
  replace (length (chan s) <? n)%nat with true by (symmetry; apply Nat.ltb_lt; lia). cbn [andb]. eauto.
Qed.

Lemma seq_run_spec {W M} (l : list (W -> M * W)) : forall w ms w', seq_run l w = (ms, w') <-> in_turn l w ms w'.
Proof.
  induction l as [|c r IH]; intros w ms w'; cbn.
  - split; intros H; [injection H as <- <-; constructor|inversion H; auto].
  - destruct (c w) as [m w1] eqn:E. destruct (seq_run r w1) as [ms2 w2] eqn:E2. split; intros H.
    + injection H as <- <-. econstructor; eauto. now apply IH.
    + inversion H; subst. rewrite E in *. match goal with X : (_, _) = (_, _) |- _ => injection X as <- <- end.
      match goal with X : in_turn _ _ _ _ |- _ => apply IH in X; rewrite E2 in X; injection X as <- <- end. auto.
Qed.

(** Induction over messages nested in lists. *)
Fixpoint dyn_rect' (P : dyn -> Prop) (Hk : forall s k, P (DKey s k)) (Hm : forall s m, P (DMouse s m))
  (Hs : forall s w h, P (DSize s w h)) (Hq : forall s, P (DQuit s)) (Hb : forall s l, Forall P l -> P (DBatch s l))
  (Hse : forall s l, Forall P l -> P (DSeq s l)) (Hp : forall s t, P (DPrint s t)) (Ht : forall s t, P (DTick s t))
  (Ho : forall n, P (DOther n)) (v : dyn) {struct v} : P v :=
  let go := dyn_rect' P Hk Hm Hs Hq Hb Hse Hp Ht Ho in
  let all := fix all (l : list dyn) : Forall P l := match l with [] => Forall_nil P | x :: r => Forall_cons x (go x) (all r) end in
  match v with
  | DKey s k => Hk s k | DMouse s m => Hm s m | DSize s w h => Hs s w h | DQuit s => Hq s
  | DBatch s l => Hb s l (all l) | DSeq s l => Hse s l (all l) | DPrint s t => Hp s t | DTick s t => Ht s t | DOther n => Ho n
  end.

Lemma map_id_all (f : dyn -> dyn) (Q : dyn -> Prop) l :
  Forall (fun v => Q v -> f v = v) l -> Forall Q l -> map f l = l.
Proof. induction 1; intros H'; cbn; auto. inversion H'; subst. f_equal; auto. Qed.

Lemma pub_int_pub v : only Pub v -> to_public (to_internal v) = v.
Proof.
  induction v using dyn_rect'; intros Hv; inversion Hv; subst; cbn; auto.
  - destruct k; reflexivity.
  - destruct m; reflexivity.
  - f_equal. rewrite map_map. apply (map_id_all _ (only Pub)); auto.
  - f_equal. rewrite map_map. apply (map_id_all _ (only Pub)); auto.
Qed.
Lemma int_pub_int v : only Int v -> to_internal (to_public v) = v.
Proof.
  induction v using dyn_rect'; intros Hv; inversion Hv; subst; cbn; auto.
  - destruct k; reflexivity.
  - destruct m; reflexivity.
  - f_equal. rewrite map_map. apply (map_id_all _ (only Int)); auto.
  - f_equal. rewrite map_map. apply (map_id_all _ (only Int)); auto.
Qed.
Lemma to_internal_only v : only Pub v -> only Int (to_internal v).
Proof.
  induction v using dyn_rect'; intros Hv; inversion Hv; subst; cbn; constructor.
  - induction H; inversion H1; subst; cbn; constructor; auto.
    apply IHForall; auto. now constructor.
  - induction H; inversion H1; subst; cbn; constructor; auto.
    apply IHForall; auto. now constructor.
Qed.
Lemma to_public_only v : only Int v -> only Pub (to_public v).
Proof.
  induction v using dyn_rect'; intros Hv; inversion Hv; subst; cbn; constructor.
  - induction H; inversion H1; subst; cbn; constructor; auto.
    apply IHForall; auto. now constructor.
  - induction H; inversion H1; subst; cbn; constructor; auto.
    apply IHForall; auto. now constructor.
Qed.
Lemma to_internal_contents v : contents (to_internal v) = contents v.
Proof.
  induction v using dyn_rect'; try destruct s; cbn; auto; try (destruct k; reflexivity); try (destruct m; reflexivity).
  all: f_equal; rewrite map_map; apply map_ext_in; intros a Ha; rewrite Forall_forall in H; auto.
Qed.
Lemma to_public_contents v : contents (to_public v) = contents v.
Proof.
  induction v using dyn_rect'; try destruct s; cbn; auto; try (destruct k; reflexivity); try (destruct m; reflexivity).
  all: f_equal; rewrite map_map; apply map_ext_in; intros a Ha; rewrite Forall_forall in H; auto.
Qed.
