From Verif Require Import Prelude RenderModel RenderSpec RenderProofs RpModel RpSpec RpProofs.

Lemma prun_cons s o os : prun s (o :: os) = (fst (prun (fst (pstep s o)) os), snd (pstep s o) ++ snd (prun (fst (pstep s o)) os)).
Proof. cbn. destruct (pstep s o) as [s1 o1]. cbn. destruct (prun s1 os). reflexivity. Qed.
Lemma prun_app a : forall s b, fst (prun s (a ++ b)) = fst (prun (fst (prun s a)) b) /\ snd (prun s (a ++ b)) = snd (prun s a) ++ snd (prun (fst (prun s a)) b).
Proof.
  induction a as [|o a IH]; intros s b; [split; reflexivity|]. cbn [app]. rewrite !prun_cons. cbn [fst snd].
  destruct (IH (fst (pstep s o)) b) as [-> ->]. rewrite app_assoc. split; reflexivity.
Qed.
Lemma as_calls_app a : forall s b, as_calls s (a ++ b) = as_calls s a ++ as_calls (fst (prun s a)) b.
Proof.
  induction a as [|o a IH]; intros s b; [reflexivity|]. rewrite prun_cons. cbn [app as_calls fst]. rewrite IH. apply app_assoc.
Qed.

(** Every buffer lies in the memory, and none shares a row with the frame the renderer remembers. *)
Definition inv (s : st) (R : renderer) : Prop :=
  let m := memory s in let p := hprev (rend s) in
  R = Renderer (pw (rend s)) (deref m p) (pwid (rend s)) (phei (rend s)) /\ valid m p /\
  Forall (fun b => valid m (fst b) /\ apart p (fst b)) (bufs s) /\ Forall (fun b => valid m b /\ apart p b) (pool s).

Lemma apart_sym a b : apart a b -> apart b a.
Proof. intros H x Hx Hy. exact (H x Hy Hx). Qed.
Lemma apart_new m b k : valid m b -> (forall a, In a (rows k) -> (length m <= a)%nat) -> apart b k.
Proof. intros (_ & _ & V) Hk a Ha Hc. rewrite Forall_forall in V. destruct (V a Ha). apply Hk in Hc. lia. Qed.
Lemma drop_In {A} (l : list A) : forall i x, In x (drop_nth l i) -> In x l.
Proof. induction l as [|h t IH]; intros i x; [destruct i; auto|]. destruct i; cbn; [auto|]. intros [->|H]; eauto. Qed.
Lemma drop_Forall {A} (P : A -> Prop) l i : Forall P l -> Forall P (drop_nth l i).
Proof. rewrite !Forall_forall. intros H x Hx. apply H, (drop_In l i x Hx). Qed.
Lemma Forall_snoc {A} (P : A -> Prop) l x : Forall P l -> P x -> Forall P (l ++ [x]).
Proof. intros H1 H2. apply Forall_app. split; [exact H1|]. constructor; [exact H2|constructor]. Qed.
Lemma valid_all {A} (f : A -> hbuf) p R m m' l : keeps R m m' -> Forall (fun b => valid m (f b) /\ apart p (f b)) l -> Forall (fun b => valid m' (f b) /\ apart p (f b)) l.
Proof. intros K. apply Forall_impl. intros b [V Ap]. split; [eapply keeps_valid; eauto|exact Ap]. Qed.

Lemma inv_full s R b : inv s R -> In b (map fst (bufs s)) -> forall m r out, p_full (memory s) (rend s) b = (m, r, out) ->
  exists R', render_full R (deref (memory s) b) = (R', out) /\ inv (St m r (pool s) (pool_new s) (bufs s)) R'.
Proof.
  intros (ER & Vp & Vb & Vq) Hb m r out E1. unfold p_full in E1. unfold render_full. rewrite ER. cbn [rw].
  destruct (w_clear (pw (rend s))) as [w1 o1]. destruct (w_move w1 0 0) as [w2 o2].
  destruct (apply_ops w2 (diff_full (deref (memory s) b))) as [w3 o3]. destruct (h_clone (memory s) b) as [m' k] eqn:Ec.
  injection E1 as <- <- <-. eexists. split; [reflexivity|].
  assert (Vb0 : valid (memory s) b).
  { apply in_map_iff in Hb as (x & <- & Hx). rewrite Forall_forall in Vb. apply Vb, Hx. }
  destruct (clone_ok _ _ _ _ Vb0 Ec) as (K & Vk & Dk & Fk).
  unfold inv. cbn [memory rend hprev pw pwid phei bufs pool]. split; [rewrite Dk; reflexivity|]. split; [exact Vk|].
  split; apply Forall_forall.
  - intros x Hx. rewrite Forall_forall in Vb. destruct (Vb x Hx) as [V _]. split; [eapply keeps_valid; eauto|apply apart_sym; eapply apart_new; eauto].
  - intros x Hx. rewrite Forall_forall in Vq. destruct (Vq x Hx) as [V _]. split; [eapply keeps_valid; eauto|apply apart_sym; eapply apart_new; eauto].
Qed.
Lemma inv_render s R b : inv s R -> In b (map fst (bufs s)) -> forall m r out, p_render (memory s) (rend s) b = (m, r, out) ->
  exists R', render R (deref (memory s) b) = (R', out) /\ inv (St m r (pool s) (pool_new s) (bufs s)) R'.
Proof.
  intros I Hb m r out E1. pose proof I as (ER & Vp & Vb & Vq). unfold p_render in E1. unfold render.
  replace (rwidth R) with (pwid (rend s)) by (rewrite ER; reflexivity). replace (rheight R) with (phei (rend s)) by (rewrite ER; reflexivity). change (bw (deref (memory s) b)) with (hw b). change (bh (deref (memory s) b)) with (hh b).
  destruct (negb ((Z.of_nat (hw b) =? pwid (rend s)) && (Z.of_nat (hh b) =? phei (rend s)))); [eapply inv_full; eauto|].
  replace (prev R) with (deref (memory s) (hprev (rend s))) by (rewrite ER; reflexivity).
  destruct (diff (deref (memory s) (hprev (rend s))) (deref (memory s) b)) as [|o0 ops0].
  - injection E1 as <- <- <-. exists R. split; [reflexivity|]. exact I.
  - set (ops := o0 :: ops0) in *. cbv zeta in E1. cbv zeta.
    replace (rw R) with (pw (rend s)) by (rewrite ER; reflexivity).
    destruct (should_full_redraw _ _); [eapply inv_full; eauto|].
    destruct (apply_ops (pw (rend s)) _) as [w1 o1]. destruct (h_clone (memory s) b) as [m' k] eqn:Ec. injection E1 as <- <- <-.
    eexists. split; [reflexivity|].
    assert (Vb0 : valid (memory s) b).
    { apply in_map_iff in Hb as (x & <- & Hx). rewrite Forall_forall in Vb. apply Vb, Hx. }
    destruct (clone_ok _ _ _ _ Vb0 Ec) as (K & Vk & Dk & Fk).
    unfold inv. cbn [memory rend hprev pw pwid phei bufs pool]. split; [rewrite Dk; reflexivity|]. split; [exact Vk|].
    split; apply Forall_forall.
    + intros x Hx. rewrite Forall_forall in Vb. destruct (Vb x Hx) as [V _]. split; [eapply keeps_valid; eauto|apply apart_sym; eapply apart_new; eauto].
    + intros x Hx. rewrite Forall_forall in Vq. destruct (Vq x Hx) as [V _]. split; [eapply keeps_valid; eauto|apply apart_sym; eapply apart_new; eauto].
Qed.
Lemma inv_clear s R m r out : inv s R -> p_clear (memory s) (rend s) = (m, r, out) ->
  exists R', r_clear R = (R', out) /\ inv (St m r (pool s) (pool_new s) (bufs s)) R'.
Proof.
  intros (ER & Vp & Vb & Vq) E1. unfold p_clear in E1. unfold r_clear. rewrite ER. cbn [rw prev rwidth rheight].
  destruct (w_clear (pw (rend s))) as [w1 o1]. destruct (w_move w1 0 0) as [w2 o2]. injection E1 as <- <- <-.
  eexists. split; [reflexivity|]. destruct (clear_ok (memory s) (hprev (rend s)) Vp) as [K D].
  unfold inv. cbn [memory rend hprev pw pwid phei bufs pool]. split; [rewrite D; reflexivity|]. split; [eapply keeps_valid; eauto|].
  split; eapply valid_all; eauto.
Qed.
(** Writing into one buffer that the renderer does not remember, or allocating. *)
Lemma inv_write s R rows0 m q n bs : inv s R -> keeps rows0 (memory s) m -> (forall a, In a (rows (hprev (rend s))) -> ~ In a rows0) ->
  Forall (fun b => valid m b /\ apart (hprev (rend s)) b) q -> Forall (fun b => valid m (fst b) /\ apart (hprev (rend s)) (fst b)) bs ->
  inv (St m (rend s) q n bs) R.
Proof.
  intros (ER & Vp & Vb & Vq) K Ha Hq Hb. unfold inv. cbn [memory rend bufs pool].
  split; [rewrite ER; f_equal; symmetry; eapply keeps_deref; eauto|]. split; [eapply keeps_valid; eauto|]. auto.
Qed.

Lemma hand s i b f : nth_error (bufs s) i = Some (b, f) -> In b (map fst (bufs s)).
Proof. intros H. apply nth_error_In in H. apply in_map_iff. exists (b, f). auto. Qed.

Lemma inv_step s R o : inv s R -> exists R', do_calls R (as_call s o) = (R', snd (pstep s o)) /\ inv (fst (pstep s o)) R'.
Proof.
  intros I. pose proof I as (ER & Vp & Vb & Vq).
  assert (Nothing : forall m q n bs, inv (St m (rend s) q n bs) R -> exists R', do_calls R [] = (R', snd (St m (rend s) q n bs, [] : list Z)) /\ inv (fst (St m (rend s) q n bs, [] : list Z)) R').
  { intros m q n bs H. exists R. split; [reflexivity|exact H]. }
  assert (One : forall c R' out, do_call R c = (R', out) -> do_calls R [c] = (R', out)).
  { intros c R' out H. cbn. rewrite H. rewrite app_nil_r. reflexivity. }
  assert (Same : exists R', do_calls R [] = (R', snd (s, [] : list Z)) /\ inv (fst (s, [] : list Z)) R').
  { exists R. split; [reflexivity|exact I]. }
  destruct o as [taken|w h|i d|i|i| |w h| | |i]; cbn [as_call pstep].
  - (* Buffer *)
    assert (New : exists R', do_calls R [] = (R', snd (let '(m, b) := alloc (memory s) (fst (pool_new s)) (snd (pool_new s)) in (St (h_clear m b) (rend s) (pool s) (pool_new s) (bufs s ++ [(b, true)]), [] : list Z))) /\
      inv (fst (let '(m, b) := alloc (memory s) (fst (pool_new s)) (snd (pool_new s)) in (St (h_clear m b) (rend s) (pool s) (pool_new s) (bufs s ++ [(b, true)]), [] : list Z))) R').
    { destruct (alloc (memory s) (fst (pool_new s)) (snd (pool_new s))) as [m b] eqn:Ea. apply Nothing.
      destruct (alloc_ok _ _ _ _ _ Ea) as (K & Vk & Dk & Fk & _).
      destruct (clear_ok m b Vk) as [K2 D2].
      assert (K3 : keeps (rows b) (memory s) (h_clear m b)) by (eapply keeps_trans; [eapply keeps_weaken; [|exact K]; intros a []|exact K2]).
      assert (Ap : apart (hprev (rend s)) b) by (eapply apart_new; eauto).
      eapply inv_write; eauto.
      - exact (valid_all (fun b => b) _ _ _ _ _ K3 Vq).
      - apply Forall_snoc; [exact (valid_all fst _ _ _ _ _ K3 Vb)|]. split; cbn [fst]; [exact (keeps_valid _ _ _ _ K2 Vk)|exact Ap]. }
    destruct taken as [i|]; [|exact New]. destruct (nth_error (pool s) i) as [b|] eqn:Ei; [|exact New].
    apply Nothing. apply nth_error_In in Ei. pose proof Vq as Vq'. rewrite Forall_forall in Vq'. destruct (Vq' b Ei) as [Vb0 Ap].
    destruct (clear_ok _ b Vb0) as [K D]. eapply inv_write; eauto.
    + apply drop_Forall. exact (valid_all (fun b => b) _ _ _ _ _ K Vq).
    + apply Forall_snoc; [exact (valid_all fst _ _ _ _ _ K Vb)|]. split; cbn [fst]; [eapply keeps_valid; eauto|exact Ap].
  - destruct (alloc (memory s) w h) as [m b] eqn:Ea. apply Nothing. destruct (alloc_ok _ _ _ _ _ Ea) as (K & Vk & Dk & Fk & _).
    assert (Ap : apart (hprev (rend s)) b) by (eapply apart_new; eauto).
    eapply inv_write; eauto.
    + exact (valid_all (fun b => b) _ _ _ _ _ K Vq).
    + apply Forall_snoc; [exact (valid_all fst _ _ _ _ _ K Vb)|]. split; cbn [fst]; [exact Vk|exact Ap].
  - destruct (nth_error (bufs s) i) as [[b f]|] eqn:Ei; [|exact Same]. apply Nothing. apply nth_error_In in Ei. pose proof Vb as Vb'. rewrite Forall_forall in Vb'.
    destruct (Vb' _ Ei) as [V0 Ap]. cbn [fst] in V0, Ap. destruct (draw_ok (memory s) b d V0) as [K D]. eapply inv_write; eauto.
    + exact (valid_all (fun b => b) _ _ _ _ _ K Vq).
    + exact (valid_all fst _ _ _ _ _ K Vb).
  - unfold holds. destruct (nth_error (bufs s) i) as [[b f]|] eqn:Ei; cbn [option_map fst]; [|exact Same].
    destruct (p_render (memory s) (rend s) b) as [[m r] out] eqn:Er. destruct (inv_render s R b I (hand s i b f Ei) m r out Er) as (R' & H1 & H2).
    exists R'. split; [apply One; exact H1|exact H2].
  - destruct (nth_error (bufs s) i) as [[b [|]]|] eqn:Ei; [|exact Same|exact Same]. apply Nothing.
    unfold inv. cbn [memory rend bufs pool]. split; [exact ER|]. split; [exact Vp|]. split; [exact Vb|]. apply Forall_snoc; [exact Vq|].
      apply nth_error_In in Ei. rewrite Forall_forall in Vb. exact (Vb _ Ei).
  - destruct (p_clear (memory s) (rend s)) as [[m r] out] eqn:Er. destruct (inv_clear s R m r out I Er) as (R' & H1 & H2).
    exists R'. split; [apply One; exact H1|exact H2].
  - destruct (alloc (memory s) w h) as [m k] eqn:Ea. destruct (alloc_ok _ _ _ _ _ Ea) as (K & Vk & Dk & Fk & _).
    destruct (p_clear m (PR (pw (rend s)) k w h)) as [[m2 r] out] eqn:Er.
    assert (I2 : inv (St m (PR (pw (rend s)) k w h) (pool s) (w, h) (bufs s)) (Renderer (pw (rend s)) (new_buffer w h) w h)).
    { unfold inv. cbn [memory rend hprev pw pwid phei bufs pool]. rewrite Dk. split; [reflexivity|]. split; [exact Vk|]. split; apply Forall_forall; intros x Hx.
      - rewrite Forall_forall in Vb. destruct (Vb x Hx) as [V _]. split; [eapply keeps_valid; eauto|apply apart_sym; eapply apart_new; eauto].
      - rewrite Forall_forall in Vq. destruct (Vq x Hx) as [V _]. split; [eapply keeps_valid; eauto|apply apart_sym; eapply apart_new; eauto]. }
    destruct (inv_clear _ _ _ _ _ I2 Er) as (R' & H1 & H2). exists R'. split; [apply One; cbn [do_call]; unfold r_resize; rewrite ER; exact H1|exact H2].
  - exists R. split; [apply One; reflexivity|exact I].
  - exists R. split; [apply One; reflexivity|exact I].
  - apply Nothing. unfold inv. cbn [memory rend bufs pool]. split; [exact ER|]. split; [exact Vp|]. split; [exact Vb|]. apply drop_Forall, Vq.
Qed.
Lemma do_calls_app' a : forall r b, do_calls r (a ++ b) = (fst (do_calls (fst (do_calls r a)) b), snd (do_calls r a) ++ snd (do_calls (fst (do_calls r a)) b)).
Proof.
  induction a as [|c a IH]; intros r b; cbn [app do_calls].
  - cbn. destruct (do_calls r b). reflexivity.
  - destruct (do_call r c) as [r1 o1]. rewrite IH. destruct (do_calls r1 a) as [r2 o2]. cbn [fst snd].
    destruct (do_calls r2 b) as [r3 o3]. cbn. rewrite app_assoc. reflexivity.
Qed.
Lemma inv_run os : forall s R, inv s R -> snd (prun s os) = snd (do_calls R (as_calls s os)) /\ inv (fst (prun s os)) (fst (do_calls R (as_calls s os))).
Proof.
  induction os as [|o os IH]; intros s R I; [split; [reflexivity|exact I]|].
  destruct (inv_step s R o I) as (R' & E1 & I'). destruct (IH _ _ I') as [H1 H2].
  rewrite prun_cons. cbn [as_calls fst snd]. rewrite do_calls_app', E1. cbn [fst snd]. rewrite H1. split; [reflexivity|exact H2].
Qed.
Lemma inv_start w h : inv (start w h) (new_renderer w h).
Proof.
  unfold start. destruct (alloc [] w h) as [m k] eqn:Ea. destruct (alloc_ok _ _ _ _ _ Ea) as (K & Vk & Dk & Fk & _).
  unfold inv. cbn [memory rend hprev pw pwid phei bufs pool]. rewrite Dk. split; [reflexivity|]. split; [exact Vk|]. split; constructor.
Qed.
Lemma start_bufs w h : bufs (start w h) = [] /\ pool (start w h) = [] /\ pool_new (start w h) = (w, h).
Proof. unfold start. destruct (alloc [] w h). auto. Qed.
