(** Invariant of the input reader's goroutines. *)
From Verif Require Import Prelude CrModel.
#[local] Arguments Nat.leb : simpl never.

Definition chd (s : st) : list Z := match ch s with Some (d, _) => d | None => [] end.
Definition lsd (s : st) : list Z := match loop s with LSend d _ => d | _ => [] end.
Definition rwd (s : st) : list Z := match relay s with RWrite d _ => d | _ => [] end.

Record Inv (s : st) : Prop := {
  I1 : typed s = taken s ++ src s;
  I2 : done s = false -> taken s = got s ++ chd s ++ lsd s ++ pipe s ++ rwd s;
  I3 : loop s <> LDead -> relay s <> RDead -> taken s = got s ++ chd s ++ lsd s ++ pipe s ++ rwd s;
  I4 : loop s <> LDead -> exists rest, taken s = got s ++ chd s ++ lsd s ++ pipe s ++ rwd s ++ rest;
  I5 : exists rest, taken s = got s ++ chd s ++ rest;
  I6 : wclosed s = true -> done s = false -> relay s = RDead /\ src s = [] /\ eof s = true;
  I7 : forall d, relay s = RWrite d true -> src s = [] /\ eof s = true;
  I8 : relay s = RDead -> wclosed s = true;
  I9 : forall d e, relay s = RWrite d e -> d <> [];
  I10 : forall d, loop s = LSend d false -> d <> [];
  I11 : forall d, done s = false -> loop s = LSend d true -> d = [] /\ pipe s = [] /\ wclosed s = true;
  I12 : done s = false -> loop s = LDead -> pipe s = [] /\ wclosed s = true;
  I13 : forall d, done s = false -> ch s = Some (d, true) -> d = [] /\ loop s = LDead;
  I14 : canceled s = false -> ended s = true -> loop s = LDead /\ ch s = None;
  I15 : canceled s = false -> loop s = LDead -> ended s = true \/ ch s = Some ([], true);
  I16 : (3 <= stage s)%nat -> wclosed s = true }.

Lemma inv_init : Inv init.
Proof. constructor; cbn; try discriminate; try congruence; auto; try (exists []; reflexivity); try lia. Qed.

Section Reader.
Variable cap : nat.
Variable deadlines : bool.

Ltac field :=
  cbn in *; intros; subst; cbn in *; repeat match goal with H : _ /\ _ |- _ => destruct H end; repeat match goal with H : exists _, _ |- _ => destruct H end;
  try congruence; try discriminate; try lia; auto.

Ltac unf := unfold done, canceled, chd, lsd, rwd in *; cbn in *.
Lemma done_canceled s : canceled s = false -> done s = false.
Proof using. unfold canceled, done. intros H. apply Nat.leb_gt in H. apply Nat.leb_gt. lia. Qed.

Lemma inv_step s s' : Inv s -> step cap deadlines s s' -> Inv s'.
Proof using.
  intros [J1 J2 J3 J4 J5 J6 J7 J8 J9 J10 J11 J12 J13 J14 J15 J16] H.
  destruct H as [s R D|s R D|s a b l R E N L W|s R E F|s R D G|s a b l R W N1 N2 L|s a R W L|s a R W L|s a l R W|s P D|s P D|s a b P E N L|s P E W|s d e P C|s d e P D|s d e P C|s P D].
  - (* RelayStop *) unfold done, canceled, chd, lsd, rwd in *. rewrite R in *. constructor; unf; try assumption; try congruence; try discriminate; auto.
  - (* RelayGo *) unfold done, canceled, chd, lsd, rwd in *. rewrite R in *. constructor; unf; try assumption; try congruence; try discriminate; auto.
    + intros X Y. destruct (J6 X Y). congruence.
  - (* RelayData *) unfold done, canceled, chd, lsd, rwd in *. rewrite R, E in *. constructor; unf.
    + rewrite J1. now rewrite app_assoc.
    + intros D. rewrite (J2 D). rewrite !app_nil_r, <- !app_assoc. reflexivity.
    + intros X _. rewrite J3 by congruence. rewrite !app_nil_r, <- !app_assoc. reflexivity.
    + intros X. exists []. rewrite J3 by congruence. rewrite !app_nil_r, <- !app_assoc. reflexivity.
    + destruct J5 as (r & ->). exists (r ++ a). now rewrite <- !app_assoc.
    + intros X D. destruct (J6 X D). congruence.
    + intros d X. injection X as <- ->. auto.
    + discriminate.
    + intros d e X. congruence.
    + exact J10. + exact J11. + exact J12. + exact J13. + exact J14. + exact J15. + exact J16.
  - (* RelayEnd *) unfold done, canceled, chd, lsd, rwd in *. rewrite R in *. constructor; unf; try assumption; try congruence; try discriminate; auto.
    + intros d D Y. specialize (J11 d D Y). tauto.
    + intros D Y. specialize (J12 D Y). tauto.
  - (* RelayDeadline *) assert (DT : done s = true) by (unfold done; destruct G as [-> | ->]; reflexivity).
    assert (CT : canceled s = true) by (unfold canceled; destruct G as [-> | ->]; reflexivity). unfold chd, lsd, rwd in *. rewrite R in *. constructor; unf; try assumption; try congruence; try discriminate; auto.
  - (* RelayPart *) unfold done, canceled, chd, lsd, rwd in *. rewrite R in *. constructor; unf.
    + exact J1.
    + intros D. rewrite (J2 D). rewrite <- !app_assoc. reflexivity.
    + intros X _. rewrite J3 by congruence. rewrite <- !app_assoc. reflexivity.
    + intros X. exists []. rewrite J3 by congruence. rewrite !app_nil_r, <- !app_assoc. reflexivity.
    + exact J5. + intros X. congruence. + intros d X. injection X as <- ->. exact (J7 _ eq_refl). + discriminate. + intros d e X. congruence. + exact J10.
    + intros d D X. destruct (J11 d D X) as (_ & _ & Q). congruence.
    + intros D X. destruct (J12 D X). congruence.
    + exact J13. + exact J14. + exact J15. + exact J16.
  - (* RelayAll *) unfold done, canceled, chd, lsd, rwd in *. rewrite R in *. constructor; unf.
    + exact J1.
    + intros D. rewrite (J2 D). rewrite !app_nil_r. reflexivity.
    + intros X _. rewrite J3 by congruence. rewrite !app_nil_r. reflexivity.
    + intros X. exists []. rewrite J3 by congruence. rewrite !app_nil_r. reflexivity.
    + exact J5. + intros X. congruence. + discriminate. + discriminate. + discriminate. + exact J10.
    + intros d D X. destruct (J11 d D X) as (_ & _ & Q). congruence.
    + intros D X. destruct (J12 D X). congruence.
    + exact J13. + exact J14. + exact J15. + exact J16.
  - (* RelayLast *) unfold done, canceled, chd, lsd, rwd in *. rewrite R in *. constructor; unf.
    + exact J1.
    + intros D. rewrite (J2 D). rewrite !app_nil_r. reflexivity.
    + congruence.
    + intros X. exists []. rewrite J3 by congruence. rewrite !app_nil_r. reflexivity.
    + exact J5. + intros _ _. destruct (J7 _ eq_refl). auto. + discriminate. + reflexivity. + discriminate. + exact J10.
    + intros d D X. destruct (J11 d D X) as (_ & _ & Q). congruence.
    + intros D X. destruct (J12 D X). congruence.
    + exact J13. + exact J14. + exact J15. + reflexivity.
  - (* RelayBroken *) unfold done, canceled, chd, lsd, rwd in *. rewrite R in *. constructor; unf.
    + exact J1.
    + intros D. destruct (J6 W D). congruence.
    + congruence.
    + intros X. destruct (J4 X) as (r & ->). exists (a ++ r). reflexivity.
    + exact J5. + intros _ D. destruct (J6 W D). congruence. + discriminate. + reflexivity. + discriminate. + exact J10.
    + intros d D X. destruct (J6 W D). congruence.
    + intros D X. destruct (J6 W D). congruence.
    + exact J13. + exact J14. + exact J15. + reflexivity.
  - (* LoopStop *) unfold chd, lsd, rwd in *. rewrite P in *. constructor; unf; try congruence; try discriminate; auto.
    + intros X. exfalso. apply Nat.leb_gt in X. apply Nat.leb_le in D. lia.
    + intros X. exfalso. apply Nat.leb_gt in X. apply Nat.leb_le in D. lia.
  - (* LoopGo *) unfold done, canceled, chd, lsd, rwd in *. rewrite P in *. constructor; unf; try congruence; try discriminate; auto.
    + intros X. apply J4; congruence.
    + intros d X Y. destruct (J13 d X Y). congruence.
    + intros X Y. destruct (J14 X Y). congruence.
  - (* LoopData *) unfold done, canceled, chd, lsd, rwd in *. rewrite P, E in *. constructor; unf.
    + exact J1.
    + intros D. rewrite (J2 D). rewrite <- !app_assoc. reflexivity.
    + intros _ X. rewrite J3 by congruence. rewrite <- !app_assoc. reflexivity.
    + intros _. destruct J4 as (r & ->); [congruence|]. exists r. rewrite <- !app_assoc. reflexivity.
    + exact J5. + exact J6. + exact J7. + exact J8. + exact J9. + congruence. + discriminate. + discriminate.
    + intros d X Y. destruct (J13 d X Y). congruence.
    + intros X Y. destruct (J14 X Y). congruence.
    + discriminate. + exact J16.
  - (* LoopEnd *) unfold done, canceled, chd, lsd, rwd in *. rewrite P in *. constructor; unf; try congruence; auto.
    + intros _ X. apply J3; congruence.
    + intros _. apply J4; congruence.
    + intros d X Y. injection Y as <-. auto.
    + intros d X Y. destruct (J13 d X Y). congruence.
    + intros X Y. destruct (J14 X Y). congruence.
  - (* LoopSend *) unfold done, canceled, chd, lsd, rwd in *. rewrite P, C in *. constructor; unf.
    + exact J1.
    + intros D. rewrite (J2 D). destruct e; reflexivity.
    + intros X Y. rewrite J3 by congruence. destruct e; [congruence|reflexivity].
    + intros X. destruct J4 as (r & ->); [congruence|]. exists r. destruct e; [congruence|reflexivity].
    + destruct J4 as (r & ->); [congruence|]. exists (pipe s ++ match relay s with RWrite d0 _ => d0 | _ => [] end ++ r). reflexivity.
    + exact J6. + exact J7. + exact J8. + exact J9. + intros d0. destruct e; discriminate. + intros d0 _. destruct e; discriminate.
    + intros D X. destruct e; [|discriminate]. destruct (J11 d D eq_refl) as (_ & A & B). auto.
    + intros d0 D X. injection X as <- ->. destruct (J11 d D eq_refl) as (A & _). auto.
    + intros X Y. destruct (J14 X Y). congruence.
    + intros X Y. destruct e; [|discriminate]. right. destruct (J11 d) as (A & _); [now apply (done_canceled s)|reflexivity|]. now subst.
    + exact J16.
  - (* LoopDrop *) unfold chd, lsd, rwd in *. rewrite P in *. constructor; unf; try congruence; try discriminate; auto.
    + intros X. exfalso. apply Nat.leb_gt in X. apply Nat.leb_le in D. lia.
    + intros X. exfalso. apply Nat.leb_gt in X. apply Nat.leb_le in D. lia.
  - (* ReadData *) unfold done, canceled, chd, lsd, rwd in *. rewrite C in *. constructor; unf.
    + exact J1.
    + intros D. rewrite (J2 D). rewrite <- !app_assoc. reflexivity.
    + intros X Y. rewrite J3 by congruence. rewrite <- !app_assoc. reflexivity.
    + intros X. destruct J4 as (r & ->); [congruence|]. exists r. rewrite <- !app_assoc. reflexivity.
    + destruct J5 as (r & ->). exists r. now rewrite <- !app_assoc.
    + exact J6. + exact J7. + exact J8. + exact J9. + exact J10. + exact J11. + exact J12. + discriminate.
    + intros X Y. split; [|reflexivity]. destruct e; [|rewrite orb_false_r in Y; exact (proj1 (J14 X Y))]. apply (J13 d); [now apply (done_canceled s)|reflexivity].
    + intros X Y. left. destruct (J15 X Y) as [-> |Q]; [reflexivity|]. injection Q as _ ->. apply orb_true_r.
    + exact J16.
  - (* ReadDone *) constructor; unf; try assumption.
    + intros X. exfalso. apply Nat.leb_gt in X. apply Nat.leb_le in D. lia.
    + intros X. exfalso. apply Nat.leb_gt in X. apply Nat.leb_le in D. lia.
Qed.

Lemma inv_outside s s' : Inv s -> outside s s' -> Inv s'.
Proof using.
  clear cap deadlines. intros [J1 J2 J3 J4 J5 J6 J7 J8 J9 J10 J11 J12 J13 J14 J15 J16] H.
  destruct H as [s b E|s|s P D|s P D|s G|s G|s G|s G|s G P|s G P|s G].
  - constructor; unf; try assumption.
    + rewrite J1. now rewrite app_assoc.
    + intros X Y. destruct (J6 X Y) as (_ & _ & Q). congruence.
    + intros d X. destruct (J7 d X). congruence.
  - constructor; unf; try assumption.
    + intros X Y. destruct (J6 X Y) as (A & B & _). auto.
    + intros d X. destruct (J7 d X). auto.
  - constructor; unf; assumption.
  - constructor; unf; try assumption; congruence.
  - constructor; unf; rewrite G in *; cbn in *; try assumption; try discriminate; try lia; auto.
  - constructor; unf; rewrite G in *; cbn in *; try assumption; try discriminate; try lia; auto.
  - constructor; unf; rewrite G in *; cbn in *; try assumption; try discriminate; try lia; auto.
  - constructor; unf; rewrite G in *; cbn in *; try assumption; try discriminate; try lia; auto.
  - constructor; unf; rewrite G in *; cbn in *; try assumption; try discriminate; try lia; auto; try (intros _; apply J16; lia).
  - constructor; unf; rewrite G in *; cbn in *; try assumption; try discriminate; try lia; auto; try (intros _; apply J16; lia).
  - constructor; unf; rewrite G in *; cbn in *; try assumption; try discriminate; try lia; auto; try (intros _; apply J16; lia).
Qed.

Lemma inv_run s s' : Inv s -> run cap deadlines s s' -> Inv s'.
Proof using.
  intros I H. induction H as [s|a b c R IH X|a b c R IH X]; [exact I| |].
  - exact (inv_step _ _ (IH I) X).
  - exact (inv_outside _ _ (IH I) X).
Qed.
Lemma inv_reached s : reached cap deadlines s -> Inv s.
Proof using. intros H. exact (inv_run _ _ inv_init H). Qed.
End Reader.
