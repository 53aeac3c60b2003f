(** C250 - C252: the program's input reader across Run, Suspend and Resume. *)
From Coq Require Import Relations.
From Verif Require Import Prelude RgModel.

(** Goroutine [i] may still take input. *)
Definition reading (s : st) (i : nat) : Prop := (i < n s)%nat /\ pc s i = GLoop.

Definition live (p : gpc) : Prop := p = GLoop \/ p = GClose.
Record Inv (s : st) : Prop := {
  V1 : panicked s = false;
  V2 : forall i, (i < n s)%nat -> live (pc s i) -> S i = n s /\ running s = true /\ closed s i = false;
  V3 : forall i, (i < n s)%nat -> closed s i = false -> live (pc s i);
  V4 : running s = true -> (0 < n s)%nat /\ cancelF s = Some (pred (n s)) /\ doneF s = Some (pred (n s)) /\ gen s = ggen s (pred (n s));
  V5 : forall i, (i < n s)%nat -> (ggen s i <= gen s)%nat;
  V6 : forall i, (S i < n s)%nat -> (ggen s i < gen s)%nat;
  V7 : forall c, main s = MWait c -> c = Some (pred (n s)) /\ (0 < n s)%nat;
  V8 : main s = MShut -> forall i, (i < n s)%nat -> ~ live (pc s i) }.

Lemma upd_same {A} (f : nat -> A) i v : upd f i v i = v.
Proof. unfold upd. now rewrite Nat.eqb_refl. Qed.
Lemma upd_other {A} (f : nat -> A) i j v : j <> i -> upd f i v j = f j.
Proof. intros H. unfold upd. apply Nat.eqb_neq in H. now rewrite H. Qed.

Lemma live_dec p : {live p} + {~ live p}.
Proof. destruct p; [left; left; reflexivity|left; right; reflexivity|right|right]; intros [X|X]; discriminate. Qed.

Lemma inv_start s : Inv s -> main s = MIdle -> (forall i, (i < n s)%nat -> ~ live (pc s i)) -> Inv (start s).
Proof.
  intros [A1 A2 A3 A4 A5 A6 A7 A8] M L. constructor; unfold start; cbn [n pc ggen told closed running cancelF doneF gen main panicked loop].
  - exact A1.
  - intros i Hi Q. destruct (Nat.eq_dec i (n s)) as [->|Ne].
    + rewrite upd_same. auto.
    + rewrite upd_other in Q by exact Ne. exfalso. apply (L i); [lia|exact Q].
  - intros i Hi Q. destruct (Nat.eq_dec i (n s)) as [->|Ne].
    + rewrite upd_same. left. reflexivity.
    + rewrite upd_other in Q by exact Ne. rewrite upd_other by exact Ne. apply A3; [lia|exact Q].
  - intros _. cbn [pred]. rewrite upd_same. repeat split; lia.
  - intros i Hi. destruct (Nat.eq_dec i (n s)) as [->|Ne]; [rewrite upd_same; lia|]. rewrite upd_other by exact Ne. assert (i < n s)%nat by lia. pose proof (A5 i H). lia.
  - intros i Hi. rewrite upd_other by lia. assert (i < n s)%nat by lia. pose proof (A5 i H). lia.
  - rewrite M. discriminate.
  - rewrite M. discriminate.
Qed.

Lemma inv_step s s' : Inv s -> step false s s' -> Inv s'.
Proof.
  intros V H. destruct V as [A1 A2 A3 A4 A5 A6 A7 A8].
  destruct H as [s i Hi P|s i Hi P|s i Hi P|s c M C|s c M T|s M].
  - (* Leave *) constructor; unfold set_pc; cbn [n pc ggen told closed running cancelF doneF gen main panicked loop]; auto.
    + intros j Hj Q. apply A2; [exact Hj|]. destruct (Nat.eq_dec j i) as [->|Ne]; [rewrite P; left; reflexivity|]. now rewrite upd_other in Q.
    + intros j Hj Q. destruct (Nat.eq_dec j i) as [->|Ne]; [rewrite upd_same; right; reflexivity|]. rewrite upd_other by exact Ne. auto.
    + intros M j Hj. destruct (Nat.eq_dec j i) as [->|Ne]; [|rewrite upd_other by exact Ne; auto]. exfalso. apply (A8 M i Hi). rewrite P. left. reflexivity.
  - (* CloseDone *) destruct (A2 i Hi) as (Li & Rn & Cl); [rewrite P; right; reflexivity|]. destruct (A4 Rn) as (_ & Cf & Df & Ge).
    assert (Pi : pred (n s) = i) by lia. rewrite Pi in *. unfold close_done. rewrite Df, Cl.
    constructor; cbn [n pc ggen told closed running cancelF doneF gen main panicked loop]; auto.
    + intros j Hj Q. destruct (Nat.eq_dec j i) as [->|Ne]; [rewrite upd_same in Q; destruct Q; discriminate|]. rewrite upd_other in Q by exact Ne. rewrite upd_other by exact Ne. auto.
    + intros j Hj Q. destruct (Nat.eq_dec j i) as [->|Ne]; [rewrite upd_same in Q; discriminate|]. rewrite upd_other in Q by exact Ne. rewrite upd_other by exact Ne. auto.
    + intros _. rewrite Pi. repeat split; auto; lia.
    + intros c M. rewrite Pi. exact (A7 c M).
    + intros M j Hj. destruct (Nat.eq_dec j i) as [->|Ne]; [rewrite upd_same; intros [X|X]; discriminate|]. rewrite upd_other by exact Ne. auto.
  - (* Clear *) assert (NL : forall j, (j < n s)%nat -> live (upd (pc s) i GGone j) -> live (pc s j) /\ j <> i).
    { intros j Hj Q. destruct (Nat.eq_dec j i) as [->|Ne]; [rewrite upd_same in Q; destruct Q; discriminate|]. rewrite upd_other in Q by exact Ne. auto. }
    assert (CI : closed s i = true). { destruct (closed s i) eqn:Q; [reflexivity|]. specialize (A3 i Hi Q). rewrite P in A3. destruct A3; discriminate. }
    unfold clear. destruct (Nat.eqb_spec (gen s) (ggen s i)) as [Eg|Ng].
    + assert (Li : S i = n s). { destruct (Nat.eq_dec (S i) (n s)) as [X|X]; [exact X|]. assert (S i < n s)%nat by lia. specialize (A6 i H). lia. }
      constructor; cbn [n pc ggen told closed running cancelF doneF gen main panicked loop]; auto.
      * intros j Hj Q. destruct (NL j Hj Q) as (Q' & Ne). destruct (A2 j Hj Q') as (X & _). lia.
      * intros j Hj Q. destruct (Nat.eq_dec j i) as [->|Ne]; [congruence|]. rewrite upd_other by exact Ne. auto.
      * discriminate.
      * intros M j Hj Q. destruct (NL j Hj Q) as (Q' & Ne). exact (A8 M j Hj Q').
    + constructor; unfold set_pc; cbn [n pc ggen told closed running cancelF doneF gen main panicked loop]; auto.
      * intros j Hj Q. destruct (NL j Hj Q) as (Q' & Ne). auto.
      * intros j Hj Q. destruct (Nat.eq_dec j i) as [->|Ne]; [congruence|]. rewrite upd_other by exact Ne. auto.
      * intros M j Hj Q. destruct (NL j Hj Q) as (Q' & Ne). exact (A8 M j Hj Q').
  - (* WaitDone *) constructor; unfold set_main; cbn [n pc ggen told closed running cancelF doneF gen main panicked loop]; auto; try discriminate.
    intros _ i Hi Q. destruct (A7 _ M) as (X & Hn). injection X as ->. destruct (A2 i Hi Q) as (Li & _ & Cl).
    assert (pred (n s) = i) by lia. congruence.
  - discriminate.
  - (* StopEnd *) constructor; unfold stop_end; cbn [n pc ggen told closed running cancelF doneF gen main panicked loop]; auto; try discriminate.
    + intros i Hi Q. exfalso. exact (A8 M i Hi Q).
    + intros i Hi. specialize (A6 i Hi). lia.
Qed.

Lemma not_running s : Inv s -> running s = false -> forall i, (i < n s)%nat -> ~ live (pc s i).
Proof. intros V R i Hi Q. destruct (V2 _ V i Hi Q) as (_ & X & _). congruence. Qed.

Lemma inv_loop s b : Inv s -> Inv (set_loop s b).
Proof. intros [A1 A2 A3 A4 A5 A6 A7 A8]. constructor; assumption. Qed.

Lemma inv_call s s' : Inv s -> call false s s' -> Inv s'.
Proof.
  intros V H. destruct H as [s M L [Z|Z]|s L|s M|s s' M E].
  - apply inv_loop. apply inv_start; auto. now apply not_running.
  - discriminate.
  - now apply inv_loop.
  - unfold restart. destruct (running s) eqn:R; [exact V|]. apply inv_start; auto. now apply not_running.
  - unfold stop_begin in E. destruct (running s) eqn:R; [|discriminate]. destruct (cancelF s) as [i|] eqn:Cf; [|discriminate]. injection E as <-.
    destruct V as [A1 A2 A3 A4 A5 A6 A7 A8]. destruct (A4 R) as (Hn & _ & Df & Ge). constructor; cbn [n pc ggen told closed running cancelF doneF gen main panicked loop]; rewrite ?R; auto; try discriminate.
    + intros i' Hi Q. destruct (A2 i' Hi Q) as (X1 & _ & X3). auto.
    + intros _. destruct (A4 R) as (X1 & X2 & X3 & X4). rewrite <- Cf. auto.
    + intros c X. injection X as <-. auto.
Qed.

Lemma inv_reached s : reached false false s -> Inv s.
Proof.
  intros H. unfold reached in H. remember init as i0 eqn:Ei. induction H as [s|a b c R IH X|a b c R IH X].
  - subst. constructor; cbn; try discriminate; auto; intros; lia.
  - exact (inv_step _ _ (IH Ei) X).
  - exact (inv_call _ _ (IH Ei) X).
Qed.

(** * C250 *)
Theorem C250_no_panic s : reached false false s -> panicked s = false.
Proof. intros H. exact (V1 _ (inv_reached s H)). Qed.

Theorem C250_one_reader s i j : reached false false s -> reading s i -> reading s j -> i = j.
Proof.
  intros H (Hi & Pi) (Hj & Pj). pose proof (inv_reached s H) as V.
  destruct (V2 _ V i Hi) as (X & _); [left; exact Pi|]. destruct (V2 _ V j Hj) as (Y & _); [left; exact Pj|]. lia.
Qed.

(** When a call of Suspend has stopped the reader no goroutine reads any more, and none will before Resume. *)
Theorem C250_stopped s : reached false false s -> main s = MShut \/ (main s = MIdle /\ stop_begin s = None) -> forall i, ~ reading s i.
Proof.
  intros H C i (Hi & P). pose proof (inv_reached s H) as V. destruct C as [M|(M & E)].
  - apply (V8 _ V M i Hi). left. exact P.
  - destruct (V2 _ V i Hi) as (_ & R & _); [left; exact P|]. destruct (V4 _ V R) as (_ & Cf & _). unfold stop_begin in E. rewrite R, Cf in E. discriminate.
Qed.
Theorem C250_stays_stopped a s s' : reached false false a -> main a = MShut -> s = stop_end a -> clos_refl_trans_1n _ (step false) s s' -> (forall i, ~ reading s' i) /\ running s' = false.
Proof.
  intros H M -> T.
  assert (G : forall x y, clos_refl_trans_1n _ (step false) x y -> Inv x -> main x = MIdle -> running x = false -> Inv y /\ main y = MIdle /\ running y = false).
  { clear. intros x y T. induction T as [x|x y z X T IH]; [auto|]. intros V M R. apply IH.
    - exact (inv_step _ _ V X).
    - destruct X as [s i Hi P|s i Hi P|s i Hi P|s c M' C|s c M' Q|s M']; try congruence; try exact M.
      + unfold close_done. destruct (doneF s); [destruct (closed s _)|]; exact M.
      + unfold clear. destruct (_ =? _)%nat; exact M.
    - destruct X as [s i Hi P|s i Hi P|s i Hi P|s c M' C|s c M' Q|s M']; try congruence; try exact R.
      + unfold close_done. destruct (doneF s); [destruct (closed s _)|]; exact R.
      + unfold clear. destruct (_ =? _)%nat; [reflexivity|exact R]. }
  destruct (G _ _ T) as (V & Ms & R); [exact (inv_step _ _ (inv_reached a H) (StopEnd false a M))|reflexivity|reflexivity|].
  split; [|exact R]. intros i (Hi & P). apply (not_running s' V R i Hi). left. exact P.
Qed.

(** Resume after that starts exactly one reader. *)
Theorem C250_resumed s : reached false false s -> running s = false -> main s = MIdle -> exists i, reading (restart s) i /\ forall j, reading (restart s) j -> j = i.
Proof.
  intros H R M. pose proof (inv_reached s H) as V. unfold restart. rewrite R. exists (n s).
  split; [split; [cbn; lia|cbn; apply upd_same]|]. intros j (Hj & P). cbn in Hj, P.
  destruct (Nat.eq_dec j (n s)) as [E|Ne]; [exact E|]. rewrite upd_other in P by exact Ne. exfalso. apply (not_running s V R j); [lia|left; exact P].
Qed.

(** While Suspend waits, whoever still reads has been cancelled. *)
Theorem C250_cancelled s c : reached false false s -> main s = MWait c -> forall i, (i < n s)%nat -> pc s i = GLoop -> told s i = true.
Proof.
  assert (Main : reached false false s -> forall c, main s = MWait c -> forall i, (i < n s)%nat -> pc s i = GLoop -> told s i = true).
  2: { intros H M. exact (Main H c M). }
  clear c. intros H. pose proof (inv_reached s H) as V0. clear V0. unfold reached in H. remember init as i0 eqn:Ei. induction H as [s|a b c R IH X|a b c R IH X].
  - subst. discriminate.
  - specialize (IH Ei). destruct X as [s i Hi P|s i Hi P|s i Hi P|s d M C|s d M T|s M]; intros d0 M0 j Hj Q.
    + cbn [set_pc main n pc told] in *. destruct (Nat.eq_dec j i) as [->|Ne]; [rewrite upd_same in Q; discriminate|]. rewrite upd_other in Q by exact Ne. eauto.
    + unfold close_done in *. destruct (doneF s) as [x|]; [destruct (closed s x)|]; cbn [main n pc told] in *; eauto.
      destruct (Nat.eq_dec j i) as [->|Ne]; [rewrite upd_same in Q; discriminate|]. rewrite upd_other in Q by exact Ne. eauto.
    + unfold clear in *. destruct (gen s =? ggen s i)%nat; cbn [set_pc main n pc told] in *; (destruct (Nat.eq_dec j i) as [->|Ne]; [rewrite upd_same in Q; discriminate|]; rewrite upd_other in Q by exact Ne; eauto).
    + discriminate.
    + discriminate.
    + discriminate.
  - assert (V : Inv b) by (apply inv_reached; unfold reached; subst; exact R). specialize (IH Ei). destruct X as [s M L Z|s L|s M|s s' M E]; intros d0 M0 j Hj Q.
    + cbn [set_loop start main] in M0. congruence.
    + cbn [set_loop main n pc told] in *. eauto.
    + unfold restart in *. destruct (running s); cbn [start main] in M0; congruence.
    + unfold stop_begin in E. destruct (running s) eqn:Rn; [|discriminate]. destruct (cancelF s) as [k|] eqn:Cf; [|discriminate]. injection E as <-. cbn [main n pc told] in *.
      destruct (V2 _ V j Hj) as (Lj & _); [left; exact Q|]. destruct (V4 _ V Rn) as (_ & Cf' & _). replace j with k by (assert (k = pred (n s)) by congruence; lia). apply upd_same.
Qed.

(** A reader is cancelled by Suspend only: outside a Suspend whoever reads has not been. *)
Theorem C250_not_cancelled s : reached false false s -> main s = MIdle -> forall i, reading s i -> told s i = false.
Proof.
  intros H. assert (V0 := inv_reached s H). unfold reached in H. remember init as i0 eqn:Ei. clear V0. induction H as [s|a b c R IH X|a b c R IH X].
  - subst. intros _ i (Hi & _). cbn in Hi. lia.
  - assert (V : Inv b) by (apply inv_reached; unfold reached; subst; exact R). specialize (IH Ei). destruct X as [s i Hi P|s i Hi P|s i Hi P|s d M C|s d M T|s M]; intros M0 j (Hj & Q).
    + cbn [set_pc main n pc told] in *. destruct (Nat.eq_dec j i) as [->|Ne]; [rewrite upd_same in Q; discriminate|]. rewrite upd_other in Q by exact Ne. apply IH; auto. split; auto.
    + unfold close_done in *. destruct (doneF s) as [x|]; [destruct (closed s x)|]; cbn [main n pc told] in *; try (apply IH; auto; split; auto).
      destruct (Nat.eq_dec j i) as [->|Ne]; [rewrite upd_same in Q; discriminate|]. rewrite upd_other in Q by exact Ne. exact Q.
    + unfold clear in *. destruct (gen s =? ggen s i)%nat; cbn [set_pc main n pc told] in *; (destruct (Nat.eq_dec j i) as [->|Ne]; [rewrite upd_same in Q; discriminate|]; rewrite upd_other in Q by exact Ne; apply IH; auto; split; auto).
    + discriminate.
    + discriminate.
    + exfalso. apply (V8 _ V M j Hj). left. exact Q.
  - assert (V : Inv b) by (apply inv_reached; unfold reached; subst; exact R). specialize (IH Ei). 
    assert (St : forall s, Inv s -> running s = false -> forall j, reading (start s) j -> told (start s) j = false).
    { intros s Vs Rn j (Hj & Q). cbn [start n pc told] in *. destruct (Nat.eq_dec j (n s)) as [->|Ne]; [apply upd_same|]. rewrite upd_other in Q by exact Ne. exfalso. apply (not_running s Vs Rn j); [lia|left; exact Q]. }
    destruct X as [s M L Z|s L|s M|s s' M E]; intros M0 j Rd.
    + destruct Z as [Z|Z]; [|discriminate]. exact (St s V Z j Rd).
    + exact (IH M0 j Rd).
    + unfold restart in *. destruct (running s) eqn:Rn; [exact (IH M j Rd)|]. exact (St s V Rn j Rd).
    + unfold stop_begin in E. destruct (running s); [|discriminate]. destruct (cancelF s); [|discriminate]. injection E as <-. discriminate.
Qed.

(** Suspend returns: until it has, some goroutine can move (a cancelled reader leaves its loop), and no schedule goes on for ever without a new call. *)
Theorem C250_suspend_not_stuck s : reached false false s -> main s <> MIdle -> exists s', step false s s'.
Proof.
  intros H M. pose proof (inv_reached s H) as V. destruct (main s) as [|c|] eqn:Em; [congruence| |].
  - destruct (V7 _ V c Em) as (-> & Hn). destruct (closed s (pred (n s))) eqn:Cl.
    + eexists. eapply WaitDone; eauto.
    + destruct (V3 _ V (pred (n s))) as [P|P]; [lia|exact Cl| |].
      * eexists. apply (Leave false s (pred (n s))); [lia|exact P].
      * eexists. apply (CloseDone false s (pred (n s))); [lia|exact P].
  - eexists. apply StopEnd. exact Em.
Qed.

Definition wpc (p : gpc) : nat := match p with GLoop => 3 | GClose => 2 | GClear => 1 | GGone => 0 end.
Definition wm (m : mpc) : nat := match m with MIdle => 0 | MShut => 1 | MWait _ => 2 end.
Fixpoint wsum (f : nat -> gpc) (k : nat) : nat := match k with O => 0 | S j => wpc (f j) + wsum f j end.
Definition measure (s : st) : nat := (wsum (pc s) (n s) + wm (main s))%nat.
Lemma wsum_ext f g k : (forall j, (j < k)%nat -> f j = g j) -> wsum f k = wsum g k.
Proof. induction k as [|k IH]; intros H; [reflexivity|]. cbn. rewrite (H k) by lia. rewrite IH; [reflexivity|]. intros j Hj. apply H. lia. Qed.
Lemma wsum_upd f i v k : (i < k)%nat -> (wpc v < wpc (f i))%nat -> (wsum (upd f i v) k < wsum f k)%nat.
Proof.
  intros Hi Hv. induction k as [|k IH]; [lia|]. cbn [wsum]. destruct (Nat.eq_dec i k) as [->|Ne].
  - rewrite upd_same. rewrite (wsum_ext (upd f k v) f k); [lia|]. intros j Hj. apply upd_other. lia.
  - rewrite upd_other by lia. specialize (IH ltac:(lia)). lia.
Qed.
Lemma step_measure s s' : reached false false s -> step false s s' -> (measure s' < measure s)%nat.
Proof.
  intros H X. pose proof (inv_step _ _ (inv_reached s H) X) as V'. pose proof (V1 _ V') as NP. unfold measure.
  destruct X as [s i Hi P|s i Hi P|s i Hi P|s d M C|s d M T|s M].
  - cbn [set_pc pc n main]. pose proof (wsum_upd (pc s) i GClose (n s) Hi). rewrite P in *. cbn in *. lia.
  - unfold close_done in *. destruct (doneF s) as [x|]; [destruct (closed s x)|]; cbn [panicked] in NP; try discriminate.
    cbn [pc n main]. pose proof (wsum_upd (pc s) i GClear (n s) Hi). rewrite P in *. cbn in *. lia.
  - pose proof (wsum_upd (pc s) i GGone (n s) Hi) as W. rewrite P in W. cbn in W. unfold clear. destruct (gen s =? ggen s i)%nat; cbn [set_pc pc n main]; lia.
  - cbn [set_main pc n main]. rewrite M. cbn. lia.
  - discriminate.
  - cbn [stop_end pc n main]. rewrite M. cbn. lia.
Qed.
Theorem C250_suspend_returns s : reached false false s -> Acc (fun y x => step false x y) s.
Proof.
  remember (measure s) as k eqn:E. revert s E. induction k as [k IH] using (well_founded_induction lt_wf). intros s -> H. constructor. intros y X.
  apply (IH (measure y)); [exact (step_measure s y H X)|reflexivity|]. exact (run_step false false _ _ _ H X).
Qed.

(** * C251 *)
Definition t1 := set_loop (start init) true.
Definition t2 := match stop_begin t1 with Some s => s | None => t1 end.
Definition t3 := set_main t2 MShut.
Definition t4 := stop_end t3.
Definition t5 := set_pc t4 0 GClose.
Definition t6 := close_done t5 0.

Lemma reach_t4 : reached true false t4.
Proof.
  unfold reached. eapply run_step; [|apply (StopEnd true t3); reflexivity]. eapply run_step; [|apply (WaitTimeout true t2 (Some 0%nat)); reflexivity].
  eapply run_call; [|apply (Suspend false t1 t2); reflexivity]. eapply run_call; [apply run_refl|apply (Run false init); [reflexivity|reflexivity|left; reflexivity]].
Qed.

(** The 200 ms pass: Suspend returns although the reader still reads; when that reader ends, the program panics (close of a nil channel). *)
Theorem C251_refuted : exists s s', reached true false s /\ main s = MIdle /\ running s = false /\ reading s 0 /\ run true false s s' /\ panicked s' = true.
Proof.
  exists t4, t6. split; [exact reach_t4|]. split; [reflexivity|]. split; [reflexivity|]. split; [split; [unfold t4; cbn; lia|reflexivity]|]. split; [|reflexivity].
  eapply run_step; [|apply (CloseDone true t5 0); [unfold t5; cbn; lia|reflexivity]]. eapply run_step; [apply run_refl|apply (Leave true t4 0); [unfold t4; cbn; lia|reflexivity]].
Qed.
(** If they do not pass this cannot happen, whatever the schedule. *)
Theorem C251_partial s : reached false false s -> panicked s = false /\ (main s = MShut -> forall i, ~ reading s i).
Proof. intros H. split; [exact (C250_no_panic s H)|]. intros M. apply C250_stopped; auto. Qed.

(** * C252 *)
(** The event loop has ended (Run has returned) and the reader still reads. *)
Theorem C252_refuted : exists s, reached false false s /\ loop s = false /\ main s = MIdle /\ reading s 0.
Proof.
  exists (set_loop t1 false). split; [|split; [reflexivity|split; [reflexivity|split; [unfold t1; cbn; lia|reflexivity]]]].
  unfold reached. eapply run_call; [|apply (RunEnd false t1); reflexivity]. eapply run_call; [apply run_refl|apply (Run false init); [reflexivity|reflexivity|left; reflexivity]].
Qed.
(** It does not if the program was suspended before, or if the input had ended. *)
Theorem C252_partial s : reached false false s -> running s = false -> forall i, ~ reading s i.
Proof. intros H R i (Hi & P). apply (not_running s (inv_reached s H) R i Hi). left. exact P. Qed.

(** * C253 *)
Definition u2 := set_loop (start (set_loop t1 false)) true.
Definition u3 := set_pc u2 0 GClose.
Definition u4 := close_done u3 0.
Definition u5 := set_pc u4 1 GClose.
Definition u6 := close_done u5 1.
(** Run, ended by Quit, Run again: two goroutines read the input; when the input ends the second one to notice panics (close of a closed channel). *)
Theorem C253_refuted : exists s s', reached false true s /\ reading s 0 /\ reading s 1 /\ clos_refl_trans_1n _ (step false) s s' /\ panicked s' = true.
Proof.
  exists u2, u6. split; [|split; [split; [unfold u2; cbn; lia|reflexivity]|split; [split; [unfold u2; cbn; lia|reflexivity]|split; [|reflexivity]]]].
  - unfold reached. eapply run_call; [|apply (Run true (set_loop t1 false)); [reflexivity|reflexivity|right; reflexivity]].
    eapply run_call; [|apply (RunEnd true t1); reflexivity]. eapply run_call; [apply run_refl|apply (Run true init); [reflexivity|reflexivity|left; reflexivity]].
  - eapply Relation_Operators.rt1n_trans; [apply (Leave false u2 0); [unfold u2; cbn; lia|reflexivity]|].
    eapply Relation_Operators.rt1n_trans; [apply (CloseDone false u3 0); [unfold u3; cbn; lia|reflexivity]|].
    eapply Relation_Operators.rt1n_trans; [apply (Leave false u4 1); [unfold u4; cbn; lia|reflexivity]|].
    eapply Relation_Operators.rt1n_trans; [apply (CloseDone false u5 1); [unfold u5; cbn; lia|reflexivity]|]. apply Relation_Operators.rt1n_refl.
Qed.
(** Running again is safe when the earlier reader has been stopped or has ended. *)
Theorem C253_partial s s' : reached false false s -> main s = MIdle -> loop s = false -> running s = false -> s' = set_loop (start s) true ->
  reached false false s' /\ panicked s' = false /\ (forall i, reading s' i -> i = n s).
Proof.
  intros H M L R ->. assert (T : reached false false (set_loop (start s) true)) by (eapply run_call; [exact H|apply Run; auto]).
  split; [exact T|]. split; [exact (C250_no_panic _ T)|]. intros i Ri. apply (C250_one_reader _ i (n s) T Ri). split; [cbn; lia|cbn; apply upd_same].
Qed.

(** Suspend, Resume: the hypotheses of C250 are met by a real history. *)
Definition w5 := clear (close_done (set_pc t2 0 GClose) 0) 0.
Example C250_case : exists s, reached false false s /\ main s = MShut /\ n s = 1%nat /\ pc s 0 = GGone.
Proof.
  exists (set_main w5 MShut). split; [|split; [reflexivity|split; reflexivity]]. unfold reached.
  eapply run_step; [|apply (WaitDone false w5 0); reflexivity].
  eapply run_step; [|apply (Clear false (close_done (set_pc t2 0 GClose) 0) 0); [cbn; lia|reflexivity]].
  eapply run_step; [|apply (CloseDone false (set_pc t2 0 GClose) 0); [cbn; lia|reflexivity]].
  eapply run_step; [|apply (Leave false t2 0); [cbn; lia|reflexivity]].
  eapply run_call; [|apply (Suspend false t1 t2); reflexivity]. eapply run_call; [apply run_refl|apply (Run false init); [reflexivity|reflexivity|left; reflexivity]].
Qed.

Print Assumptions C250_no_panic. Print Assumptions C250_one_reader. Print Assumptions C250_stopped. Print Assumptions C250_stays_stopped.
Print Assumptions C250_resumed. Print Assumptions C250_cancelled. Print Assumptions C250_not_cancelled. Print Assumptions C250_suspend_not_stuck.
Print Assumptions C250_suspend_returns. Print Assumptions C251_refuted. Print Assumptions C251_partial. Print Assumptions C252_refuted.
Print Assumptions C252_partial. Print Assumptions C253_refuted. Print Assumptions C253_partial.
