(** C254: external commands at the same time. *)
From Verif Require Import Prelude XcModel.

Definition finished (s : st) : Prop := forall j, pc s j = TIdle \/ exists ok, pc s j = TDone ok.

(** * C254 *)
Definition Inv (r a : bool) (s : st) : Prop :=
  (finished s /\ raw s = r /\ alt s = a /\ susp s = None) \/
  exists i, (forall j, j <> i -> pc s j = TIdle \/ exists ok, pc s j = TDone ok) /\
    match pc s i with
    | TSusp => raw s = r /\ alt s = a /\ susp s = None
    | TChild => raw s = false /\ alt s = false /\ susp s = Some (r, a)
    | TRes r' a' => r' = r /\ a' = a /\ raw s = false /\ alt s = false /\ susp s = Some (r, a)
    | TRes2 r' a' => r' = r /\ a' = a /\ raw s = false /\ alt s = a /\ susp s = Some (r, a)
    | _ => False
    end.

Lemma upd_same f i v : upd f i v i = v.
Proof. unfold upd. now rewrite Nat.eqb_refl. Qed.
Lemma upd_other f i j v : j <> i -> upd f i v j = f j.
Proof. intros H. unfold upd. apply Nat.eqb_neq in H. now rewrite H. Qed.

Lemma inv_step r a s s' : Inv r a s -> step false s s' -> Inv r a s'.
Proof.
  intros V H. destruct V as [(F & R & A & Su)|(i & F & Q)].
  - destruct H as [s i P O|s i P|s i P|s i r' a' P|s i r' a' P]; [|destruct (F i) as [X|(ok & X)]; congruence ..].
    right. exists i. cbn. split; [intros j Ne; rewrite upd_other by exact Ne; apply F|]. rewrite upd_same, Su. auto.
  - assert (One : forall j, pc s j <> TIdle -> (forall ok, pc s j <> TDone ok) -> j = i).
    { intros j N1 N2. destruct (Nat.eq_dec j i) as [E|Ne]; [exact E|]. destruct (F j Ne) as [X|(ok & X)]; [contradiction|]. exfalso. exact (N2 ok X). }
    destruct H as [s i0 P O|s i0 P|s i0 P|s i0 r' a' P|s i0 r' a' P].
    + destruct O as [O|O]; [discriminate|]. destruct (O i) as [X|(ok & X)]; rewrite X in Q; contradiction.
    + assert (i0 = i) by (apply One; congruence). subst i0. rewrite P in Q. destruct Q as (-> & -> & Su). right. exists i. cbn.
      split; [intros j Ne; rewrite upd_other by exact Ne; apply F; exact Ne|]. rewrite upd_same. auto.
    + assert (i0 = i) by (apply One; congruence). subst i0. rewrite P in Q. destruct Q as (R & A & Su). right. exists i. cbn.
      split; [intros j Ne; rewrite upd_other by exact Ne; apply F; exact Ne|]. rewrite upd_same, Su. auto.
    + assert (i0 = i) by (apply One; congruence). subst i0. rewrite P in Q. destruct Q as (-> & -> & R & A & Su). rewrite A, andb_false_r. right. exists i. cbn.
      split; [intros j Ne; rewrite upd_other by exact Ne; apply F; exact Ne|]. rewrite upd_same. auto.
    + assert (i0 = i) by (apply One; congruence). subst i0. rewrite P in Q. destruct Q as (-> & -> & R & A & Su). rewrite R, andb_false_r. left. cbn. rewrite A.
      split; [|auto]. intros j. cbn. destruct (Nat.eq_dec j i) as [->|Ne]; [rewrite upd_same; right; eauto|]. rewrite upd_other by exact Ne. apply F. exact Ne.
Qed.

(** One command at a time: each runs on a normal terminal, and afterwards the program has its terminal back. *)
Theorem C271_one_at_a_time r a s : run false (init r a) s ->
  (forall i, pc s i = TChild -> raw s = false /\ alt s = false) /\
  (finished s -> raw s = r /\ alt s = a /\ susp s = None).
Proof.
  intros H. assert (V : Inv r a s).
  { remember (init r a) as i0 eqn:E. induction H as [s|x y z R IH X]; [subst; left; split; [intros j; left; reflexivity|auto]|]. exact (inv_step _ _ _ _ (IH E) X). }
  destruct V as [(F & R & A & Su)|(i & F & Q)].
  - split; [|auto]. intros j P. destruct (F j) as [X|(ok & X)]; congruence.
  - split.
    + intros j P. destruct (Nat.eq_dec j i) as [->|Ne]; [rewrite P in Q; tauto|]. destruct (F j Ne) as [X|(ok & X)]; congruence.
    + intros Fi. destruct (Fi i) as [X|(ok & X)]; rewrite X in Q; contradiction.
Qed.

Ltac fwd H tac := let T := fresh in eassert (T : run _ _ _); [eapply run_step; [exact H|tac]|]; clear H; rename T into H; cbn in H.
(** Two commands of one Batch: the second one's child still runs when the first puts the terminal back into raw mode. *)
Theorem C254_child_in_raw_mode_refuted : forall a, exists s, run true (init true a) s /\ pc s 1%nat = TChild /\ raw s = true /\ alt s = a.
Proof.
  intros a. pose proof (run_refl true (init true a)) as H. destruct a.
  { fwd H ltac:(eapply (Begin true _ 0); [reflexivity|left; reflexivity]).
  fwd H ltac:(eapply (SuspendEnd true _ 0); reflexivity).
  fwd H ltac:(eapply (Begin true _ 1); [reflexivity|left; reflexivity]).
  fwd H ltac:(eapply (ChildEnd true _ 0); reflexivity).
  fwd H ltac:(eapply (ResumeAlt true _ 0 true true); reflexivity).
  fwd H ltac:(eapply (ResumeRaw true _ 0 true true); reflexivity).
  eexists. split; [exact H|]. cbn; auto. }
  { fwd H ltac:(eapply (Begin true _ 0); [reflexivity|left; reflexivity]).
  fwd H ltac:(eapply (SuspendEnd true _ 0); reflexivity).
  fwd H ltac:(eapply (Begin true _ 1); [reflexivity|left; reflexivity]).
  fwd H ltac:(eapply (ChildEnd true _ 0); reflexivity).
  fwd H ltac:(eapply (ResumeAlt true _ 0 true false); reflexivity).
  fwd H ltac:(eapply (ResumeRaw true _ 0 true false); reflexivity).
  eexists. split; [exact H|]. cbn; auto. }
Qed.
(** Both have returned without error and the program is left without raw mode and alternate screen. *)
Theorem C254_not_restored_refuted : exists s, run true (init true true) s /\ pc s 0%nat = TDone true /\ pc s 1%nat = TDone true /\ finished s /\ raw s = false /\ alt s = false /\ susp s = None.
Proof.
  pose proof (run_refl true (init true true)) as H.
  fwd H ltac:(eapply (Begin true _ 0); [reflexivity|left; reflexivity]).
  fwd H ltac:(eapply (Begin true _ 1); [reflexivity|left; reflexivity]).
  fwd H ltac:(eapply (SuspendEnd true _ 0); reflexivity).
  fwd H ltac:(eapply (SuspendEnd true _ 1); reflexivity).
  fwd H ltac:(eapply (ChildEnd true _ 0); reflexivity).
  fwd H ltac:(eapply (ResumeAlt true _ 0 false false); reflexivity).
  fwd H ltac:(eapply (ResumeRaw true _ 0 false false); reflexivity).
  fwd H ltac:(eapply (ChildEnd true _ 1); reflexivity).
  eexists. split; [exact H|].
  cbn. do 2 (split; [reflexivity|]). split; [|auto]. intros [|[|j]]; cbn; eauto.
Qed.

(** A command run alone, from start to end. *)
Example C254_case : exists s, run false (init true true) s /\ pc s 0%nat = TDone true /\ finished s.
Proof.
  pose proof (run_refl false (init true true)) as H.
  fwd H ltac:(eapply (Begin false _ 0); [reflexivity|right; intros j; left; reflexivity]).
  fwd H ltac:(eapply (SuspendEnd false _ 0); reflexivity).
  fwd H ltac:(eapply (ChildEnd false _ 0); reflexivity).
  fwd H ltac:(eapply (ResumeAlt false _ 0 true true); reflexivity).
  fwd H ltac:(eapply (ResumeRaw false _ 0 true true); reflexivity).
  eexists. split; [exact H|].
  cbn. split; [reflexivity|]. intros [|j]; cbn; eauto.
Qed.

Print Assumptions C271_one_at_a_time. Print Assumptions C254_child_in_raw_mode_refuted. Print Assumptions C254_not_restored_refuted.
