From Verif Require Import Prelude RenderModel RenderSpec RenderProofs RpModel RpSpec RpProofs RpSys.

(* ---------- independence ---------- *)
Definition live (s : st) (gone : list nat) (i : nat) (b : hbuf) : Prop := (exists f, nth_error (bufs s) i = Some (b, f)) /\ ~ In i gone.
Definition own (s : st) (gone : list nat) : Prop :=
  (exists R, inv s R) /\
  (forall i j bi bj, live s gone i bi -> live s gone j bj -> i <> j -> apart bi bj) /\
  (forall i bi p, live s gone i bi -> In p (pool s) -> apart bi p) /\
  (forall i j p q, nth_error (pool s) i = Some p -> nth_error (pool s) j = Some q -> i <> j -> apart p q).

Lemma draw_drawing B d : draw_val B d = drawing B [d].
Proof. destruct d; reflexivity. Qed.
Lemma drawing_app B a b : drawing B (a ++ b) = drawing (drawing B a) b.
Proof. apply fold_left_app. Qed.
Lemma drawn_app i a b : drawn i (a ++ b) = drawn i a ++ drawn i b.
Proof. apply flat_map_app. Qed.

Lemma nth_drop {A} (l : list A) : forall i j, nth_error (drop_nth l i) j = nth_error l (if (j <? i)%nat then j else S j).
Proof.
  induction l as [|h t IH]; intros i j.
  - transitivity (@None A); [destruct i, j; reflexivity|]. symmetry. apply nth_error_None. cbn. lia.
  - destruct i; cbn [drop_nth]; [destruct j; reflexivity|]. destruct j; [reflexivity|]. cbn [nth_error]. rewrite IH.
    replace (S j <? S i)%nat with (j <? i)%nat by (destruct (j <? i)%nat eqn:?; symmetry; lia). destruct (j <? i)%nat; reflexivity.
Qed.
Lemma nth_snoc {A} (l : list A) x i : nth_error (l ++ [x]) i = if (i <? length l)%nat then nth_error l i else if (i =? length l)%nat then Some x else None.
Proof.
  destruct (i <? length l)%nat eqn:E1; [apply nth_error_app1; lia|]. rewrite nth_error_app2 by lia.
  destruct (i =? length l)%nat eqn:E2; [replace (i - length l)%nat with O by lia; reflexivity|].
  destruct (i - length l)%nat as [|k] eqn:E3; [lia|]. cbn. destruct k; reflexivity.
Qed.
Lemma bufs_valid s R b : inv s R -> In b (map fst (bufs s)) -> valid (memory s) b.
Proof. intros (_ & _ & V & _) Hin. apply in_map_iff in Hin as (x & <- & Hx). rewrite Forall_forall in V. apply V, Hx. Qed.
Lemma pool_valid s R b : inv s R -> In b (pool s) -> valid (memory s) b.
Proof. intros (_ & _ & _ & V) Hin. rewrite Forall_forall in V. apply V, Hin. Qed.
Lemma live_in s gone i b : live s gone i b -> In b (map fst (bufs s)).
Proof. intros [[f Hf] _]. eapply hand; eauto. Qed.

(** The buffers a step leaves alone. *)
Lemma holds_keep s s' R i rows0 m' : inv s R -> memory s' = m' -> keeps rows0 (memory s) m' ->
  (forall b f, nth_error (bufs s) i = Some (b, f) -> nth_error (bufs s') i = Some (b, f) /\ (forall a, In a (rows b) -> ~ In a rows0)) ->
  (i < length (bufs s))%nat -> holds s' i = holds s i.
Proof.
  intros I <- K Hb Hi. unfold holds. destruct (nth_error (bufs s) i) as [[b f]|] eqn:E1; [|apply nth_error_None in E1; lia].
  destruct (Hb b f eq_refl) as [-> Ha]. cbn [option_map fst]. f_equal. eapply keeps_deref; eauto. eapply bufs_valid; eauto. eapply hand; eauto.
Qed.

Lemma p_render_keeps m r b m' r' out : valid m b -> p_render m r b = (m', r', out) -> keeps [] m m'.
Proof.
  intros V. unfold p_render, p_full. intros H.
  assert (F : forall m1 k, h_clone m b = (m1, k) -> keeps [] m m1) by (intros m1 k E1; apply (clone_ok _ _ _ _ V E1)).
  destruct (h_clone m b) as [m1 k] eqn:Ec. specialize (F m1 k eq_refl).
  destruct (w_clear (pw r)) as [w1 o1]. destruct (w_move w1 0 0) as [w2 o2]. destruct (apply_ops w2 (diff_full (deref m b))) as [w3 o3].
  destruct (negb _); [injection H as <- _ _; exact F|].
  destruct (diff (deref m (hprev r)) (deref m b)) as [|o0 ops0]; [injection H as <- _ _; apply keeps_refl|].
  cbv zeta in H. destruct (should_full_redraw _ _); [injection H as <- _ _; exact F|].
  destruct (apply_ops (pw r) _) as [w4 o4]. injection H as <- _ _. exact F.
Qed.
Lemma p_clear_keeps m r m' r' out : valid m (hprev r) -> p_clear m r = (m', r', out) -> keeps (rows (hprev r)) m m'.
Proof.
  intros V. unfold p_clear. destruct (w_clear (pw r)) as [w1 o1]. destruct (w_move w1 0 0) as [w2 o2]. intros H. injection H as <- _ _. apply clear_ok, V.
Qed.

Definition gone_after (gone : list nat) (o : pop) : list nat := match o with Release i => i :: gone | _ => gone end.
Lemma own_same s s' gone : own s gone -> bufs s' = bufs s -> pool s' = pool s -> (exists R, inv s' R) -> own s' gone.
Proof.
  intros (_ & A1 & A2 & A3) Eb Ep I. unfold own, live in *. rewrite Eb, Ep. auto.
Qed.

(** One more buffer [b] in the hands of the program. *)
Lemma own_more s gone s' b f : own s gone -> (exists R, inv s' R) -> bufs s' = bufs s ++ [(b, f)] ->
  (forall i bi, live s gone i bi -> apart bi b) -> (forall p, In p (pool s') -> In p (pool s) /\ apart b p) ->
  (forall i j p q, nth_error (pool s') i = Some p -> nth_error (pool s') j = Some q -> i <> j -> apart p q) ->
  own s' gone.
Proof.
  intros (_ & A1 & A2 & A3) I Eb Hb Hp Hpp.
  assert (L : forall i bi, live s' gone i bi -> live s gone i bi \/ (i = length (bufs s) /\ bi = b)).
  { intros i bi [[g Hg] Hn]. rewrite Eb, nth_snoc in Hg. destruct (i <? length (bufs s))%nat eqn:E1.
    - left. split; [exists g; exact Hg|exact Hn].
    - destruct (i =? length (bufs s))%nat eqn:E2; [|discriminate]. right. injection Hg as <- _. split; [lia|reflexivity]. }
  split; [exact I|]. split; [|split; [|exact Hpp]].
  - intros i j bi bj Hi Hj Hne. destruct (L i bi Hi) as [Li|[-> ->]], (L j bj Hj) as [Lj|[-> ->]].
    + eapply A1; eauto.
    + eapply Hb; eauto.
    + apply apart_sym. eapply Hb; eauto.
    + congruence.
  - intros i bi p Hi Hin. destruct (Hp p Hin) as [Hin0 Ap]. destruct (L i bi Hi) as [Li|[-> ->]]; [eapply A2; eauto|exact Ap].
Qed.

Lemma own_step s gone o : own s gone -> careful (length (bufs s)) gone [o] ->
  let s' := fst (pstep s o) in let gone' := gone_after gone o in
  own s' gone' /\ length (bufs s') = (length (bufs s) + gets [o])%nat /\
  (forall i, (i < length (bufs s))%nat -> ~ In i gone' -> holds s' i = option_map (fun B => drawing B (drawn i [o])) (holds s i)) /\
  (gets [o] = 1%nat -> exists w h, holds s' (length (bufs s)) = Some (new_buffer w h)).
Proof.
  intros Ow C. pose proof Ow as ([R I] & A1 & A2 & A3). cbv zeta.
  assert (Ie : exists R', inv (fst (pstep s o)) R') by (destruct (inv_step s R o I) as (R' & _ & I'); exists R'; exact I').
  assert (Idle : forall (g : list nat) s', (forall i, (i < length (bufs s))%nat -> ~ In i g -> holds s' i = holds s i) ->
     forall i, (i < length (bufs s))%nat -> ~ In i g -> holds s' i = option_map (fun B => drawing B []) (holds s i)).
  { intros g s' H i Hi Hn. rewrite (H i Hi Hn). destruct (holds s i); reflexivity. }
  pose proof I as (ER & Vp & Vb & Vq).
  destruct o as [taken|w h|i0 d|i0|i0| |w h| | |i0]; cbn [gone_after].
  - (* Buffer *)
    assert (New : fst (pstep s (GetBuffer taken)) = fst (let '(m, b) := alloc (memory s) (fst (pool_new s)) (snd (pool_new s)) in (St (h_clear m b) (rend s) (pool s) (pool_new s) (bufs s ++ [(b, true)]), [] : list Z)) \/
      exists i b, taken = Some i /\ nth_error (pool s) i = Some b /\ fst (pstep s (GetBuffer taken)) = St (h_clear (memory s) b) (rend s) (drop_nth (pool s) i) (pool_new s) (bufs s ++ [(b, true)])).
    { cbn [pstep]. destruct taken as [i|]; [|left; reflexivity]. destruct (nth_error (pool s) i) as [b|] eqn:Ei; [|left; reflexivity].
      right. exists i, b. auto. }
    destruct New as [->|(i & b & -> & Ei & Es)].
    + destruct (alloc (memory s) (fst (pool_new s)) (snd (pool_new s))) as [m b] eqn:Ea. cbn [fst] in Ie |- *.
      destruct (alloc_ok _ _ _ _ _ Ea) as (K & Vk & Dk & Fk & _). destruct (clear_ok m b Vk) as [K2 D2].
      assert (K3 : keeps (rows b) (memory s) (h_clear m b)) by (eapply keeps_trans; [eapply keeps_weaken; [|exact K]; intros a []|exact K2]).
      assert (Fr : forall x, valid (memory s) x -> apart x b) by (intros x Vx; eapply apart_new; eauto).
      split; [|split; [|split]].
      * eapply (own_more s gone _ b true); [exact Ow| |reflexivity| | |exact A3].
        -- destruct (inv_step s R (GetBuffer None) I) as (R' & _ & I'). exists R'. cbn [pstep] in I'. rewrite Ea in I'. exact I'.
        -- intros i bi L. apply Fr. eapply bufs_valid; eauto. eapply live_in; eauto.
        -- intros p Hp. split; [exact Hp|]. apply apart_sym, Fr. eapply pool_valid; eauto.
      * cbn. rewrite app_length. reflexivity.
      * apply Idle. intros j Hj _. eapply holds_keep; [exact I|reflexivity|exact K3| |exact Hj].
        intros x f Hx. cbn [bufs]. rewrite nth_snoc. replace (j <? length (bufs s))%nat with true by lia. split; [exact Hx|].
        apply Fr. eapply bufs_valid; eauto. eapply hand; eauto.
      * intros _. eexists _, _. unfold holds. cbn [bufs memory]. rewrite nth_snoc.
        replace (length (bufs s) <? length (bufs s))%nat with false by lia. rewrite Nat.eqb_refl. cbn [option_map fst]. rewrite D2. reflexivity.
    + rewrite Es in Ie |- *. pose proof (nth_error_In _ _ Ei) as Hb. assert (Vb0 : valid (memory s) b) by (eapply pool_valid; eauto).
      destruct (clear_ok _ b Vb0) as [K D].
      split; [|split; [|split]].
      * eapply (own_more s gone _ b true); [exact Ow|exact Ie|reflexivity| | |].
        -- intros j bj L. eapply A2; eauto.
        -- cbn [pool]. intros p Hp. split; [eapply drop_In; eauto|]. apply In_nth_error in Hp as [j Hj]. rewrite nth_drop in Hj.
           eapply (A3 i (if (j <? i)%nat then j else S j)); eauto. destruct (j <? i)%nat eqn:?; lia.
        -- cbn [pool]. intros j k p q Hj Hk Hne. rewrite nth_drop in Hj, Hk. eapply A3; eauto. destruct (j <? i)%nat eqn:?, (k <? i)%nat eqn:?; lia.
      * cbn. rewrite app_length. reflexivity.
      * apply Idle. intros j Hj Hn. eapply holds_keep; [exact I|reflexivity|exact K| |exact Hj].
        intros x f Hx. cbn [bufs]. rewrite nth_snoc. replace (j <? length (bufs s))%nat with true by lia. split; [exact Hx|].
        apply (A2 j x b); [split; [exists f; exact Hx|exact Hn]|exact Hb].
      * intros _. eexists _, _. unfold holds. cbn [bufs memory]. rewrite nth_snoc.
        replace (length (bufs s) <? length (bufs s))%nat with false by lia. rewrite Nat.eqb_refl. cbn [option_map fst]. rewrite D. reflexivity.
  - (* NewBuffer *)
    cbn [pstep] in Ie |- *. destruct (alloc (memory s) w h) as [m b] eqn:Ea. cbn [fst] in Ie |- *.
    destruct (alloc_ok _ _ _ _ _ Ea) as (K & Vk & Dk & Fk & _).
    assert (Fr : forall x, valid (memory s) x -> apart x b) by (intros x Vx; eapply apart_new; eauto).
    split; [|split; [|split]].
    + eapply (own_more s gone _ b false); [exact Ow|exact Ie|reflexivity| | |exact A3].
      * intros i bi L. apply Fr. eapply bufs_valid; eauto. eapply live_in; eauto.
      * intros p Hp. split; [exact Hp|]. apply apart_sym, Fr. eapply pool_valid; eauto.
    + cbn. rewrite app_length. reflexivity.
    + apply Idle. intros j Hj _. eapply holds_keep; [exact I|reflexivity|exact K| |exact Hj].
      intros x f Hx. cbn [bufs]. rewrite nth_snoc. replace (j <? length (bufs s))%nat with true by lia. split; [exact Hx|auto].
    + intros _. exists w, h. unfold holds. cbn [bufs memory]. rewrite nth_snoc.
      replace (length (bufs s) <? length (bufs s))%nat with false by lia. rewrite Nat.eqb_refl. cbn [option_map fst]. rewrite Dk. reflexivity.
  - (* Draw *)
    destruct C as (C1 & C2 & _). cbn [pstep] in Ie |- *. destruct (nth_error (bufs s) i0) as [[b f]|] eqn:Ei; [|apply nth_error_None in Ei; lia].
    cbn [fst] in Ie |- *. assert (Vb0 : valid (memory s) b) by (eapply bufs_valid; eauto; eapply hand; eauto).
    destruct (draw_ok (memory s) b d Vb0) as [K D]. split; [eapply own_same; eauto|]. split; [cbn; lia|]. split; [|discriminate].
    intros i Hi Hn. cbn [drawn flat_map]. destruct (i0 =? i)%nat eqn:Eq.
    + assert (i = i0) by lia. subst i. unfold holds. cbn [bufs memory]. rewrite Ei. cbn [option_map fst]. rewrite D, draw_drawing. reflexivity.
    + cbn [app]. replace (option_map _ (holds s i)) with (holds s i) by (destruct (holds s i); reflexivity).
      eapply holds_keep; [exact I|reflexivity|exact K| |exact Hi]. intros x g Hx. split; [exact Hx|].
      apply (A1 i i0 x b); [split; [exists g; exact Hx|exact Hn]|split; [exists f; exact Ei|exact C2]|lia].
  - (* Render *)
    cbn [pstep] in Ie |- *. destruct (nth_error (bufs s) i0) as [[b f]|] eqn:Ei.
    + destruct (p_render (memory s) (rend s) b) as [[m r] out] eqn:Er. cbn [fst] in Ie |- *.
      assert (Vb0 : valid (memory s) b) by (eapply bufs_valid; eauto; eapply hand; eauto).
      pose proof (p_render_keeps _ _ _ _ _ _ Vb0 Er) as K. split; [eapply own_same; eauto|]. split; [cbn; lia|]. split; [|discriminate].
      apply Idle. intros j Hj _. eapply holds_keep; [exact I|reflexivity|exact K| |exact Hj]. intros x g Hx. split; [exact Hx|auto].
    + cbn [fst] in *. split; [exact Ow|]. split; [cbn; lia|]. split; [|discriminate]. apply Idle. auto.
  - (* Release *)
    destruct C as (C1 & C2 & _). cbn [pstep] in Ie |- *.
    assert (Less : forall s', bufs s' = bufs s -> pool s' = pool s -> (exists R', inv s' R') -> own s' (i0 :: gone)).
    { intros s' Eb Ep Is. assert (L : forall i bi, live s' (i0 :: gone) i bi -> live s gone i bi).
      { intros i bi [[g Hg] Hn]. rewrite Eb in Hg. split; [exists g; exact Hg|]. intros Hc. apply Hn. right. exact Hc. }
      split; [exact Is|]. rewrite Ep. split; [|split; [|exact A3]].
      - intros i j bi bj Hi Hj. apply (A1 i j); auto.
      - intros i bi p Hi. apply (A2 i); auto. }
    destruct (nth_error (bufs s) i0) as [[b [|]]|] eqn:Ei; cbn [fst] in Ie |- *.
    + split; [|split; [cbn; lia|split; [|discriminate]]].
      * destruct (Less s eq_refl eq_refl (ex_intro _ R I)) as (_ & B1 & B2 & _).
        assert (Lb : live s gone i0 b) by (split; [exists true; exact Ei|exact C2]).
        split; [exact Ie|]. split; [|split].
        -- intros i j bi bj Hi Hj. apply (B1 i j); auto.
        -- cbn [pool]. intros i bi p Hi Hp. apply in_app_iff in Hp as [Hp|[<-|[]]]; [eapply B2; eauto|].
           destruct Hi as [[g Hg] Hn]. apply (A1 i i0 bi b); [|exact Lb|intros ->; apply Hn; left; reflexivity].
           split; [exists g; exact Hg|]. intros Hc. apply Hn. right. exact Hc.
        -- cbn [pool]. intros i j p q Hi Hj Hne. rewrite nth_snoc in Hi, Hj.
           destruct (i <? length (pool s))%nat eqn:Hi1, (j <? length (pool s))%nat eqn:Hj1.
           ++ eapply A3; eauto.
           ++ destruct (j =? length (pool s))%nat; [|discriminate]. injection Hj as <-. apply apart_sym. apply (A2 i0 b p Lb). eapply nth_error_In; eauto.
           ++ destruct (i =? length (pool s))%nat; [|discriminate]. injection Hi as <-. apply (A2 i0 b q Lb). eapply nth_error_In; eauto.
           ++ destruct (i =? length (pool s))%nat eqn:?; [|discriminate]. destruct (j =? length (pool s))%nat eqn:?; [|discriminate]. lia.
      * apply Idle. intros j Hj _. reflexivity.
    + split; [apply Less; auto; exists R; exact I|split; [cbn; lia|split; [|discriminate]]]. apply Idle. auto.
    + split; [apply Less; auto; exists R; exact I|split; [cbn; lia|split; [|discriminate]]]. apply Idle. auto.
  - (* Clear *)
    cbn [pstep] in Ie |- *. destruct (p_clear (memory s) (rend s)) as [[m r] out] eqn:Er. cbn [fst] in Ie |- *.
    pose proof (p_clear_keeps _ _ _ _ _ Vp Er) as K. split; [eapply own_same; eauto|]. split; [cbn; lia|]. split; [|discriminate].
    apply Idle. intros j Hj _. eapply holds_keep; [exact I|reflexivity|exact K| |exact Hj]. intros x g Hx. split; [exact Hx|].
    rewrite Forall_forall in Vb. apply apart_sym. apply (Vb (x, g)). eapply nth_error_In; eauto.
  - (* Resize *)
    cbn [pstep] in Ie |- *. destruct (alloc (memory s) w h) as [m k] eqn:Ea.
    destruct (alloc_ok _ _ _ _ _ Ea) as (K & Vk & Dk & Fk & _). destruct (p_clear m (PR (pw (rend s)) k w h)) as [[m2 r] out] eqn:Er. cbn [fst] in Ie |- *.
    pose proof (p_clear_keeps m (PR (pw (rend s)) k w h) _ _ _ Vk Er) as K2. cbn [hprev] in K2.
    assert (K3 : keeps (rows k) (memory s) m2) by (eapply keeps_trans; [eapply keeps_weaken; [|exact K]; intros a []|exact K2]).
    split; [eapply own_same; eauto|]. split; [cbn; lia|]. split; [|discriminate].
    apply Idle. intros j Hj _. eapply holds_keep; [exact I|reflexivity|exact K3| |exact Hj]. intros x g Hx. split; [exact Hx|].
    eapply apart_new; eauto. eapply bufs_valid; eauto. eapply hand; eauto.
  - cbn [pstep fst] in *. split; [exact Ow|]. split; [cbn; lia|]. split; [|discriminate]. apply Idle. auto.
  - cbn [pstep fst] in *. split; [exact Ow|]. split; [cbn; lia|]. split; [|discriminate]. apply Idle. auto.
  - (* Lose *)
    cbn [pstep fst] in Ie |- *. split; [|split; [cbn; lia|split; [|discriminate]]].
    + split; [exact Ie|]. split; [|split].
      * intros i j bi bj Hi Hj. apply (A1 i j); auto.
      * cbn [pool]. intros i bi p Hi Hp. eapply A2; eauto. eapply drop_In; eauto.
      * cbn [pool]. intros j k p q Hj Hk Hne. rewrite nth_drop in Hj, Hk. eapply A3; eauto. destruct (j <? i0)%nat eqn:?, (k <? i0)%nat eqn:?; lia.
    + apply Idle. intros j Hj _. reflexivity.
Qed.

Lemma careful_cons got gone o os : careful got gone (o :: os) -> careful got gone [o] /\ careful (got + gets [o])%nat (gone_after gone o) os.
Proof.
  destruct o; cbn [careful gone_after gets filter length]; intros C; try replace (got + 1)%nat with (S got) by lia; try rewrite Nat.add_0_r; intuition auto.
Qed.
Lemma gets_cons o os : gets (o :: os) = (gets [o] + gets os)%nat.
Proof. unfold gets. cbn [filter]. destruct o; reflexivity. Qed.
Lemma drawn_cons i o os : drawn i (o :: os) = drawn i [o] ++ drawn i os.
Proof. exact (drawn_app i [o] os). Qed.
Lemma drawn_later got gone o i : careful got gone [o] -> (got <= i)%nat -> drawn i [o] = [].
Proof. destruct o as [t|w h|j d|j|j| |w h| | |j]; cbn; auto. intros (C1 & _) Hi. destruct (j =? i)%nat eqn:?; [lia|reflexivity]. Qed.

Lemma own_run os : forall s gone, own s gone -> careful (length (bufs s)) gone os ->
  let s' := fst (prun s os) in
  length (bufs s') = (length (bufs s) + gets os)%nat /\
  (forall i, ~ In i gone -> ~ In (Release i) os ->
     ((i < length (bufs s))%nat -> holds s' i = option_map (fun B => drawing B (drawn i os)) (holds s i)) /\
     ((length (bufs s) <= i < length (bufs s'))%nat -> exists w h, holds s' i = Some (drawing (new_buffer w h) (drawn i os)))).
Proof.
  induction os as [|o os IH]; intros s gone Ow C; cbv zeta.
  - cbn. split; [lia|]. intros i _ _. split; [intros _; destruct (holds s i); reflexivity|lia].
  - destruct (careful_cons _ _ _ _ C) as [C1 C2]. destruct (own_step s gone o Ow C1) as (Ow' & L' & H' & N').
    rewrite prun_cons. cbn [fst]. rewrite <- L' in C2. destruct (IH _ _ Ow' C2) as [I1 I2].
    rewrite gets_cons. split; [rewrite I1, L'; lia|]. intros i Hn Hr.
    assert (Hg : ~ In i (gone_after gone o)).
    { destruct o; cbn [gone_after]; auto. intros [<-|Hc]; [apply Hr; left; reflexivity|contradiction]. }
    destruct (I2 i Hg) as [J1 J2]; [intros Hc; apply Hr; right; exact Hc|].
    rewrite drawn_cons. split.
    + intros Hi. rewrite J1 by lia. rewrite H' by auto. destruct (holds s i); cbn [option_map]; [rewrite drawing_app; reflexivity|reflexivity].
    + intros Hi. rewrite (drawn_later _ _ _ _ C1) by lia. cbn [app].
      destruct (Nat.lt_ge_cases i (length (bufs (fst (pstep s o))))) as [Hlt|Hge].
      * assert (G : gets [o] = 1%nat /\ i = length (bufs s)).
        { assert (gets [o] <= 1)%nat by (destruct o; cbn; lia). lia. }
        destruct G as [G ->]. destruct (N' G) as (w & h & E1). exists w, h. rewrite J1 by lia. rewrite E1. reflexivity.
      * apply J2. lia.
Qed.
Lemma own_start w h : own (start w h) [].
Proof.
  unfold own, live. destruct (start_bufs w h) as (-> & -> & _). split; [exists (new_renderer w h); apply inv_start|].
  split; [|split]; intros i; intros; repeat match goal with H : _ /\ _ |- _ => destruct H | H : exists _, _ |- _ => destruct H end; destruct i; discriminate || contradiction.
Qed.
