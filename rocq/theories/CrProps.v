(** C246 - C249: the input reader that can be cancelled, over every schedule of its goroutines, of the
    typing and of the callers of Read, Cancel and WaitForShutdown. *)
From Verif Require Import Prelude CrModel CrProofs.
#[local] Arguments Nat.leb : simpl never.

Section Reader.
Variable cap : nat.
Variable deadlines : bool.
Notation step := (step cap deadlines).
Notation run := (run cap deadlines).
Notation reached := (reached cap deadlines).

(** [n] steps of the reader's own goroutines, nothing happening outside. *)
Inductive steps : nat -> st -> st -> Prop :=
| steps_0 s : steps 0 s s
| steps_S n a b c : step a b -> steps n b c -> steps (Datatypes.S n) a c.
(** None of the reader's goroutines can move. *)
Definition settled (s : st) : Prop := forall s', ~ step s s'.

(** * C246 *)
Theorem C246_order s : reached s -> exists rest, typed s = got s ++ rest.
Proof using.
  intros H. destruct (inv_reached _ _ _ H) as [J1 _ _ _ (r & J5)]. rewrite J1, J5. exists (chd s ++ r ++ src s). now rewrite <- !app_assoc.
Qed.

Theorem C246_end s : reached s -> stage s = 0%nat -> ended s = true -> got s = typed s /\ eof s = true.
Proof using.
  intros H S0 En. pose proof (inv_reached _ _ _ H) as V.
  assert (CF : canceled s = false) by (unfold canceled; rewrite S0; reflexivity).
  assert (DF : done s = false) by (unfold done; rewrite S0; reflexivity).
  destruct (I14 _ V CF En) as (L & Ch). destruct (I12 _ V DF L) as (Pi & Wc). destruct (I6 _ V Wc DF) as (Re & Sr & Eo).
  split; [|exact Eo]. rewrite (I1 _ V), (I2 _ V DF). unfold chd, lsd, rwd. rewrite L, Ch, Pi, Re, Sr. cbn. now rewrite !app_nil_r.
Qed.

Definition rw (r : relay_pc) : nat := match r with RTop => 2 | RRead => 1 | RWrite _ _ => 3 | RDead => 0 end.
Definition lw (r : loop_pc) : nat := match r with LTop => 6 | LRead => 5 | LSend _ _ => 4 | LDead => 0 end.
Definition lmu (s : st) : nat := 20 * length (pipe s) + 10 * length (lsd s) + lw (loop s).
Definition mu (s : st) : nat :=
  40 * length (src s) + 30 * length (rwd s) + rw (relay s) + lmu s + 2 * length (chd s) + (match ch s with Some _ => 1 | None => 0 end)
  + (match cons s with DWait => 1 | DIdle => 0 end).

Lemma mu_step s s' : Inv s -> step s s' -> (mu s' < mu s)%nat.
Proof using.
  intros V H. unfold mu, lmu, chd, lsd, rwd.
  destruct H as [s R D|s R D|s a b l R E N L W|s R E F|s R D G|s a b l R W N1 N2 L|s a R W L|s a R W L|s a l R W|s P D|s P D|s a b P E N L|s P E W|s d e P C|s d e P D|s d e P C|s P D];
    cbn [src eof relay pipe wclosed loop ch cons stage got ended taken typed].
  - rewrite R. cbn [rw]. lia.
  - rewrite R. cbn [rw]. lia.
  - rewrite R, E, app_length. cbn [rw]. destruct a; [congruence|cbn [length]]. lia.
  - rewrite R. cbn [rw]. lia.
  - rewrite R. cbn [rw]. lia.
  - rewrite R, !app_length. cbn [rw]. destruct a; [congruence|cbn [length]]. lia.
  - rewrite R, !app_length. cbn [rw]. cbn [length]. lia.
  - rewrite R, !app_length. cbn [rw]. cbn [length]. lia.
  - rewrite R. cbn [rw]. cbn [length]. lia.
  - rewrite P. cbn [lw]. lia.
  - rewrite P. cbn [lw]. lia.
  - rewrite P, E, !app_length. cbn [lw]. destruct a; [congruence|cbn [length]]. lia.
  - rewrite P. cbn [lw length]. lia.
  - rewrite P, C. destruct e; cbn [lw length].
    + lia.
    + pose proof (I10 _ V d P) as N. destruct d; [congruence|cbn [length]]. lia.
  - rewrite P. cbn [lw length]. lia.
  - rewrite P, C. cbn [length]. lia.
  - rewrite P. lia.
Qed.

(** Left alone, the reader's goroutines come to rest. *)
Theorem C246_settles s : reached s -> exists n, forall m s', steps m s s' -> (m <= n)%nat.
Proof using.
  intros H. exists (mu s). intros m s' T. pose proof (inv_reached _ _ _ H) as V. clear H. induction T as [s|m a b c X T IH]; [lia|].
  pose proof (mu_step _ _ V X). specialize (IH (inv_step _ _ _ _ V X)). lia.
Qed.

(** When they have come to rest and a Read still waits, it waits for typing: all that was typed has been returned. *)
Theorem C246_waits_only_for_typing s : (1 <= cap)%nat -> reached s -> stage s = 0%nat -> ended s = false -> cons s = DWait -> settled s -> got s = typed s /\ eof s = false.
Proof using.
  intros Cp H S0 En Wt St. pose proof (inv_reached _ _ _ H) as V.
  assert (CF : canceled s = false) by (unfold canceled; rewrite S0; reflexivity).
  assert (DF : done s = false) by (unfold done; rewrite S0; reflexivity).
  assert (Ch : ch s = None). { destruct (ch s) as [(d & e)|] eqn:Q; [exfalso; eapply St; eapply ReadData; eauto|reflexivity]. }
  assert (L : loop s = LRead).
  { destruct (loop s) as [| |d e|] eqn:Q.
    - exfalso. eapply St, LoopGo; eauto.
    - reflexivity.
    - exfalso. eapply St, LoopSend; eauto.
    - destruct (I15 _ V CF Q); congruence. }
  assert (Pi : pipe s = []).
  { destruct (pipe s) as [|x p] eqn:Q; [reflexivity|]. exfalso. eapply St. apply (LoopData _ _ _ [x] p); [exact L|exact Q|discriminate|cbn; lia]. }
  destruct (relay s) as [| |d l|] eqn:Re.
  - exfalso. eapply St, RelayGo; eauto.
  - destruct (src s) as [|x p] eqn:Q.
    + destruct (eof s) eqn:Eo; [exfalso; eapply St, RelayEnd; eauto|]. split; [|reflexivity].
      rewrite (I1 _ V), (I2 _ V DF). unfold chd, lsd, rwd. rewrite L, Ch, Pi, Re, Q. cbn. now rewrite !app_nil_r.
    + exfalso. eapply St. apply (RelayData _ _ _ [x] p false); [exact Re|exact Q|discriminate|cbn; lia|discriminate].
  - exfalso. destruct (wclosed s) eqn:Wc; [eapply St, RelayBroken; eauto|].
    pose proof (I9 _ V _ _ Re) as N. destruct d as [|x [|y d]]; [congruence| |].
    + destruct l; [eapply St, RelayLast|eapply St, RelayAll]; eauto; rewrite Pi; cbn; lia.
    + eapply St. apply (RelayPart _ _ _ [x] (y :: d) l); [exact Re|exact Wc|discriminate|discriminate|rewrite Pi; cbn; lia].
  - exfalso. eapply St, LoopEnd; eauto using (I8 _ V Re).
Qed.

(** * C247 *)
Theorem C247_no_data_after_cancel s s' : (1 <= stage s)%nat -> cons s = DIdle -> run s s' -> got s' = got s.
Proof using.
  intros G D H. assert (T : (1 <= stage s')%nat /\ cons s' = DIdle /\ got s' = got s); [|tauto].
  induction H as [s|a b c R IH X|a b c R IH X]; [tauto| |]; destruct (IH G D) as (A & B & C); destruct X; cbn [src eof relay pipe wclosed loop ch cons stage got ended taken typed] in *; try (intuition congruence); try (intuition lia).
  unfold canceled in *. destruct (stage s); [lia|discriminate].
Qed.

Theorem C247_read_returns s : (2 <= stage s)%nat -> cons s = DWait -> exists s', step s s' /\ cons s' = DIdle /\ ended s' = true /\ got s' = got s.
Proof using.
  intros G D. eexists. split; [apply ReadDone; [exact D|unfold done; apply Nat.leb_le; lia]|]. cbn. auto.
Qed.

(** A Read called once Cancel has begun returns at once, with an error and without data. *)
Theorem C247_later_reads s s' : (1 <= stage s)%nat -> outside s s' -> cons s' = cons s.
Proof using.
  intros G H. destruct H; cbn; try reflexivity; unfold canceled in *; destruct (stage s); try lia; try discriminate; congruence.
Qed.

Lemma lmu_run s s' : Inv s -> (3 <= stage s)%nat -> run s s' -> Inv s' /\ (3 <= stage s')%nat /\ (lmu s' <= lmu s)%nat.
Proof using.
  intros V G H. induction H as [s|a b c R IH X|a b c R IH X]; [split; [exact V|lia]| |]; destruct (IH V G) as (Vb & A & B);
  pose proof (I16 _ Vb A) as Wc.
  - split; [exact (inv_step _ _ _ _ Vb X)|]. unfold lmu, lsd in *.
    destruct X as [s R' D|s R' D|s a' b' l R' E N L W|s R' E F|s R' D G'|s a' b' l R' W N1 N2 L|s a' R' W L|s a' R' W L|s a' l R' W|s P D|s P D|s a' b' P E N L|s P E W|s d e P C|s d e P D|s d e P C|s P D];
    cbn [src eof relay pipe wclosed loop ch cons stage got ended taken typed] in *; try congruence; try lia; rewrite ?P in *; cbn [lw length] in *; try lia.
    + rewrite E, app_length in B. lia.
    + destruct e; cbn [lw length]; [lia|]. pose proof (I10 _ Vb d P) as N. destruct d; [congruence|cbn [length] in *]. lia.
  - split; [exact (inv_outside _ _ Vb X)|]. unfold lmu, lsd in *. destruct X; cbn [src eof relay pipe wclosed loop ch cons stage got ended taken typed] in *; lia.
Qed.

(** Whatever else happens (typing included), the goroutine WaitForShutdown waits for has only finitely many steps left once Cancel has closed the pipe. *)
Theorem C247_finite s : reached s -> (3 <= stage s)%nat ->
  exists mu : st -> nat, forall s1 s2, run s s1 -> step s1 s2 -> (mu s2 <= mu s1)%nat /\ (loop s2 <> loop s1 -> (mu s2 < mu s1)%nat).
Proof using.
  intros H G. exists lmu. intros s1 s2 R X. destruct (lmu_run s s1 (inv_reached _ _ _ H) G R) as (V & G1 & _).
  split; [apply (lmu_run s1 s2 V G1); eapply run_step; [apply run_refl|exact X]|]. intros Ne. unfold lmu, lsd in *.
  destruct X as [s0 R' D|s0 R' D|s0 a' b' l R' E N L W|s0 R' E F|s0 R' D G'|s0 a' b' l R' W N1 N2 L|s0 a' R' W L|s0 a' R' W L|s0 a' l R' W|s0 P D|s0 P D|s0 a' b' P E N L|s0 P E W|s0 d e P C|s0 d e P D|s0 d e P C|s0 P D];
    cbn [src eof relay pipe wclosed loop ch cons stage got ended taken typed] in *; try congruence; rewrite ?P in *; cbn [lw length] in *; try lia.
  - rewrite E, app_length. destruct a'; [congruence|cbn [length]]. lia.
  - destruct e; cbn [lw length]; [lia|]. pose proof (I10 _ V d P) as N. destruct d; [congruence|cbn [length]]. lia.
Qed.

Theorem C247_shutdown_returns s : reached s -> stage s = 4%nat -> settled s ->
  loop s = LDead /\ (exists s1, outside s s1 /\ stage s1 = 5%nat) /\ (deadlines = true -> relay s = RDead).
Proof using.
  intros H G St. pose proof (inv_reached _ _ _ H) as V.
  assert (DT : done s = true) by (unfold done; rewrite G; reflexivity).
  assert (Wc : wclosed s = true) by (apply (I16 _ V); lia).
  assert (L : loop s = LDead).
  { destruct (loop s) as [| |d e|] eqn:Q; [exfalso; eapply St, LoopStop; eauto| |exfalso; eapply St, LoopDrop; eauto|reflexivity].
    exfalso. destruct (pipe s) as [|x p] eqn:Pi; [eapply St, LoopEnd; eauto|].
    eapply St. apply (LoopData _ _ _ [x] p); [exact Q|exact Pi|discriminate|cbn; lia]. }
  split; [exact L|]. split; [eexists; split; [apply WaitLoop; assumption|reflexivity]|].
  intros Dl. destruct (relay s) as [| |d e|] eqn:Q; [exfalso; eapply St, RelayStop; eauto|exfalso; eapply St, RelayDeadline; eauto|exfalso; eapply St, RelayBroken; eauto|reflexivity].
Qed.

(** * C248 *)
Definition room (s : st) : nat := match relay s with RRead => 4096 | _ => 0 end.
Lemma room_run s s' : (2 <= stage s)%nat -> run s s' -> (2 <= stage s')%nat /\ exists x, taken s' = taken s ++ x /\ (length x + room s' <= room s)%nat.
Proof using.
  intros G H. induction H as [s|a b c R IH X|a b c R IH X].
  - split; [exact G|]. exists []. rewrite app_nil_r. split; [reflexivity|cbn; lia].
  - destruct (IH G) as (G2 & x & T & Le). unfold room in *.
    destruct X as [s R' D|s R' D|s a' b' l R' E N L W|s R' E F|s R' D G'|s a' b' l R' W N1 N2 L|s a' R' W L|s a' R' W L|s a' l R' W|s P D|s P D|s a' b' P E N L|s P E W|s d e P C|s d e P D|s d e P C|s P D];
    cbn [src eof relay pipe wclosed loop ch cons stage got ended taken typed] in *; (split; [exact G2|]).
    3: { exists (x ++ a'). rewrite T, app_assoc. split; [reflexivity|]. rewrite R' in Le. rewrite app_length. destruct (relay a); lia. }
    2: { exfalso. unfold done in D. apply Nat.leb_gt in D. lia. }
    all: exists x; split; [exact T|]; rewrite ?R' in *; lia.
  - destruct (IH G) as (G2 & x & T & Le). unfold room in *.
    destruct X; cbn [src eof relay pipe wclosed loop ch cons stage got ended taken typed] in *; (split; [lia|]); exists x; auto.
Qed.

(** From Cancel on, at most one more read of the input succeeds; none if the reader's relay has ended. *)
Theorem C274_one_more_read s s' : (2 <= stage s)%nat -> run s s' ->
  exists x, taken s' = taken s ++ x /\ (length x <= 4096)%nat /\ (relay s = RDead -> x = []).
Proof using.
  intros G H. destruct (room_run s s' G H) as (_ & x & T & Le). exists x. split; [exact T|]. unfold room in Le.
  split; [destruct (relay s); lia|]. intros R. rewrite R in Le. destruct x; [reflexivity|cbn in Le; lia].
Qed.

(** * C249 *)
Record Len (s : st) : Prop := {
  N1 : (length (chd s) <= 256)%nat;
  N2 : (length (lsd s) <= 256)%nat;
  N3 : (length (pipe s) <= cap)%nat;
  N4 : (length (rwd s) <= 4096)%nat;
  N5 : done s = true -> (length (taken s) + room s <= length (got s) + (cap + 4608))%nat }.

Lemma len_step s s' : Inv s -> Len s -> step s s' -> Len s'.
Proof using.
  intros V [A B C D F] H.
  destruct H as [s R' D'|s R' D'|s a' b' l R' E N L W|s R' E F'|s R' D' G'|s a' b' l R' W N1' N2' L|s a' R' W L|s a' R' W L|s a' l R' W|s P D'|s P D'|s a' b' P E N L|s P E W|s d e P C'|s d e P D'|s d e P C'|s P D'].
  all: constructor; unfold chd, lsd, rwd, room, done in *; cbn [src eof relay pipe wclosed loop ch cons stage got ended taken typed] in *; try assumption.
  all: try rewrite R' in *; try rewrite P in *; try rewrite C' in *; try rewrite E in *; rewrite ?app_length in *; cbn [length] in *.
  all: try lia.
  all: try (intros Q; specialize (F Q); rewrite ?app_length in *; lia).
  all: destruct e; cbn [length]; lia.
Qed.

Lemma len_outside s s' : Inv s -> Len s -> outside s s' -> Len s'.
Proof using.
  intros V [A B C D F] H.
  destruct H as [s b E|s|s P D'|s P D'|s G|s G|s G|s G|s G P|s G P|s G].
  all: constructor; unfold chd, lsd, rwd, room, done in *; cbn [src eof relay pipe wclosed loop ch cons stage got ended taken typed] in *; try assumption.
  all: rewrite G in F.
  1: intros Q; apply Nat.leb_le in Q; lia.
  2-6: intros Q; exact (F eq_refl).
  intros _. assert (DF : done s = false) by (unfold done; rewrite G; reflexivity). rewrite (I2 _ V DF). unfold chd, lsd, rwd. rewrite !app_length. destruct (relay s); cbn [length] in *; lia.
Qed.

Lemma len_reached s : reached s -> Inv s /\ Len s.
Proof using.
  intros H. unfold CrModel.reached in H. remember init as i eqn:Ei. induction H as [s|a b c R IH X|a b c R IH X].
  - subst. split; [exact inv_init|]. constructor; cbn [chd lsd rwd init ch loop pipe relay length done stage]; [lia|lia|lia|lia|]. intros Q. apply Nat.leb_le in Q. cbn in Q. lia.
  - destruct (IH Ei) as (V & N). split; [exact (inv_step _ _ _ _ V X)|exact (len_step _ _ V N X)].
  - destruct (IH Ei) as (V & N). split; [exact (inv_outside _ _ V X)|exact (len_outside _ _ V N X)].
Qed.

(** What was typed and never taken stays in the input, in order; at most the pipe's capacity and 4608 bytes lie between. *)
Theorem C273_at_most s : reached s -> exists lost, typed s = got s ++ lost ++ src s /\ (length lost <= cap + 4608)%nat.
Proof using.
  intros H. destruct (len_reached s H) as (V & [A B C D F]). destruct (I5 _ V) as (r & T). exists (chd s ++ r).
  split; [rewrite (I1 _ V), T; now rewrite <- !app_assoc|].
  destruct (done s) eqn:Dn.
  - specialize (F eq_refl). rewrite T, !app_length in F. rewrite app_length. lia.
  - pose proof (I2 _ V Dn) as T2. rewrite T in T2. apply app_inv_head in T2. rewrite T2, !app_length. lia.
Qed.
End Reader.

(** * Witnesses *)
Ltac go L := eapply run_step; [|L; (reflexivity || discriminate || (cbn; lia) || (left; reflexivity) || idtac)].
Ltac ou L := eapply run_outside; [|L; (reflexivity || discriminate || idtac)].

(** The relay was waiting for input when Cancel came; WaitForShutdown has returned; the next key typed is taken and thrown away. *)
Theorem C248_refuted : forall cap deadlines,
  exists s s', reached cap deadlines s /\ stage s = 6%nat /\ typed s = [] /\ run cap deadlines s s' /\ typed s' = [97] /\ src s' = [] /\
    (forall s2, run cap deadlines s s2 -> got s2 = []).
Proof.
  intros cap dl.
  exists (St [] false RRead [] true LDead None DIdle 6 [] false [] []), (St [] false (RWrite [97] false) [] true LDead None DIdle 6 [] false [97] [97]).
  split; [|split; [reflexivity|split; [reflexivity|split; [|split; [reflexivity|split; [reflexivity|]]]]]].
  - unfold reached.
    ou ltac:(apply (WaitTimeout (St [] false RRead [] true LDead None DIdle 5 [] false [] []))).
    ou ltac:(apply (WaitLoop (St [] false RRead [] true LDead None DIdle 4 [] false [] []))).
    go ltac:(apply (LoopStop _ _ (St [] false RRead [] true LTop None DIdle 4 [] false [] []))).
    ou ltac:(apply (Cancel4 (St [] false RRead [] true LTop None DIdle 3 [] false [] []))).
    ou ltac:(apply (Cancel3 (St [] false RRead [] false LTop None DIdle 2 [] false [] []))).
    ou ltac:(apply (Cancel2 (St [] false RRead [] false LTop None DIdle 1 [] false [] []))).
    ou ltac:(apply (Cancel1 (St [] false RRead [] false LTop None DIdle 0 [] false [] []))).
    go ltac:(apply (RelayGo _ _ init)). apply run_refl.
  - eapply run_step; [|apply (RelayData _ _ (St [97] false RRead [] true LDead None DIdle 6 [] false [] [97]) [97] [] false); [reflexivity|reflexivity|discriminate|cbn [length]; lia|discriminate]].
    eapply run_outside; [|apply (Typing (St [] false RRead [] true LDead None DIdle 6 [] false [] []) 97); reflexivity]. apply run_refl.
  - intros s2 H. apply (C247_no_data_after_cancel cap dl _ s2) in H; [exact H|cbn [stage]; lia|reflexivity].
Qed.

(** A key typed before Cancel and already taken by the reader is lost: no Read returns it and it is not in the input any more. *)
Theorem C249_refuted : forall cap deadlines,
  exists s, reached cap deadlines s /\ stage s = 6%nat /\ relay s = RDead /\ typed s = [97] /\ src s = [] /\ (forall s2, run cap deadlines s s2 -> got s2 = []).
Proof.
  intros cap dl. exists (St [] false RDead [] true LDead None DIdle 6 [] false [97] [97]).
  split; [|split; [reflexivity|split; [reflexivity|split; [reflexivity|split; [reflexivity|]]]]].
  - unfold reached.
    ou ltac:(apply (WaitRelay (St [] false RDead [] true LDead None DIdle 5 [] false [97] [97]))).
    ou ltac:(apply (WaitLoop (St [] false RDead [] true LDead None DIdle 4 [] false [97] [97]))).
    go ltac:(apply (LoopStop _ _ (St [] false RDead [] true LTop None DIdle 4 [] false [97] [97]))).
    go ltac:(apply (RelayBroken _ _ (St [] false (RWrite [97] false) [] true LTop None DIdle 4 [] false [97] [97]) [97] false)).
    ou ltac:(apply (Cancel4 (St [] false (RWrite [97] false) [] true LTop None DIdle 3 [] false [97] [97]))).
    ou ltac:(apply (Cancel3 (St [] false (RWrite [97] false) [] false LTop None DIdle 2 [] false [97] [97]))).
    ou ltac:(apply (Cancel2 (St [] false (RWrite [97] false) [] false LTop None DIdle 1 [] false [97] [97]))).
    ou ltac:(apply (Cancel1 (St [] false (RWrite [97] false) [] false LTop None DIdle 0 [] false [97] [97]))).
    eapply run_step; [|apply (RelayData _ _ (St [97] false RRead [] false LTop None DIdle 0 [] false [] [97]) [97] [] false); [reflexivity|reflexivity|discriminate|cbn [length]; lia|discriminate]].
    go ltac:(apply (RelayGo _ _ (St [97] false RTop [] false LTop None DIdle 0 [] false [] [97]))).
    ou ltac:(apply (Typing init 97)). apply run_refl.
  - intros s2 H. apply (C247_no_data_after_cancel cap dl _ s2) in H; [exact H|cbn [stage]; lia|reflexivity].
Qed.

(** Two keys typed, both returned, then the end of the input: the hypotheses of C246_end are met. *)
Example C246_case : exists s, reached 16 true s /\ stage s = 0%nat /\ ended s = true /\ got s = [104; 105].
Proof.
  exists (St [] true RDead [] true LDead None DIdle 0 [104; 105] true [104; 105] [104; 105]).
  split; [|split; [reflexivity|split; reflexivity]]. unfold reached.
  go ltac:(apply (ReadData _ _ (St [] true RDead [] true LDead (Some ([], true)) DWait 0 [104; 105] false [104; 105] [104; 105]) [] true)).
  ou ltac:(apply (ReadCall (St [] true RDead [] true LDead (Some ([], true)) DIdle 0 [104; 105] false [104; 105] [104; 105]))).
  go ltac:(apply (LoopSend _ _ (St [] true RDead [] true (LSend [] true) None DIdle 0 [104; 105] false [104; 105] [104; 105]) [] true)).
  go ltac:(apply (LoopEnd _ _ (St [] true RDead [] true LRead None DIdle 0 [104; 105] false [104; 105] [104; 105]))).
  go ltac:(apply (LoopGo _ _ (St [] true RDead [] true LTop None DIdle 0 [104; 105] false [104; 105] [104; 105]))).
  go ltac:(apply (ReadData _ _ (St [] true RDead [] true LTop (Some ([104; 105], false)) DWait 0 [] false [104; 105] [104; 105]) [104; 105] false)).
  go ltac:(apply (LoopSend _ _ (St [] true RDead [] true (LSend [104; 105] false) None DWait 0 [] false [104; 105] [104; 105]) [104; 105] false)).
  eapply run_step; [|apply (LoopData _ _ (St [] true RDead [104; 105] true LRead None DWait 0 [] false [104; 105] [104; 105]) [104; 105] []); [reflexivity|reflexivity|discriminate|cbn [length]; lia]].
  go ltac:(apply (RelayEnd _ _ (St [] true RRead [104; 105] false LRead None DWait 0 [] false [104; 105] [104; 105]))).
  go ltac:(apply (RelayGo _ _ (St [] true RTop [104; 105] false LRead None DWait 0 [] false [104; 105] [104; 105]))).
  go ltac:(apply (LoopGo _ _ (St [] true RTop [104; 105] false LTop None DWait 0 [] false [104; 105] [104; 105]))).
  ou ltac:(apply (ReadCall (St [] true RTop [104; 105] false LTop None DIdle 0 [] false [104; 105] [104; 105]))).
  ou ltac:(apply (Ending (St [] false RTop [104; 105] false LTop None DIdle 0 [] false [104; 105] [104; 105]))).
  eapply run_step; [|apply (RelayAll _ _ (St [] false (RWrite [104; 105] false) [] false LTop None DIdle 0 [] false [104; 105] [104; 105]) [104; 105]); [reflexivity|reflexivity|cbn [length pipe]; lia]].
  eapply run_step; [|apply (RelayData _ _ (St [104; 105] false RRead [] false LTop None DIdle 0 [] false [] [104; 105]) [104; 105] [] false); [reflexivity|reflexivity|discriminate|cbn [length]; lia|discriminate]].
  go ltac:(apply (RelayGo _ _ (St [104; 105] false RTop [] false LTop None DIdle 0 [] false [] [104; 105]))).
  ou ltac:(apply (Typing (St [104] false RTop [] false LTop None DIdle 0 [] false [] [104]) 105)).
  ou ltac:(apply (Typing init 104)). apply run_refl.
Qed.

(** A waiting Read with everything at rest (C246_waits_only_for_typing). *)
Example C246_waiting : exists s, reached 16 true s /\ stage s = 0%nat /\ ended s = false /\ cons s = DWait /\ settled 16 true s.
Proof.
  exists (St [] false RRead [] false LRead None DWait 0 [] false [] []). split; [|do 3 (split; [reflexivity|])].
  - unfold reached.
    ou ltac:(apply (ReadCall (St [] false RRead [] false LRead None DIdle 0 [] false [] []))).
    go ltac:(apply (LoopGo _ _ (St [] false RRead [] false LTop None DIdle 0 [] false [] []))).
    go ltac:(apply (RelayGo _ _ init)). apply run_refl.
  - intros s' X. inversion X; subst; cbn [src eof relay pipe wclosed loop ch cons stage got ended taken typed] in *; try discriminate; try congruence;
      try (match goal with Q : [] = ?a ++ _ |- _ => destruct a; [congruence|discriminate] end);
      try (match goal with Q : _ \/ _ |- _ => destruct Q; discriminate end).
Qed.

(** Cancel has returned and everything is at rest (C247_shutdown_returns), for an input that supports deadlines. *)
Example C247_case : exists s, reached 16 true s /\ stage s = 4%nat /\ settled 16 true s.
Proof.
  exists (St [] false RDead [] true LDead None DIdle 4 [] false [] []). split; [|split; [reflexivity|]].
  - unfold reached.
    go ltac:(apply (LoopStop _ _ (St [] false RDead [] true LTop None DIdle 4 [] false [] []))).
    eapply run_step; [|apply (RelayDeadline _ _ (St [] false RRead [] true LTop None DIdle 4 [] false [] [])); [reflexivity|reflexivity|left; reflexivity]].
    ou ltac:(apply (Cancel4 (St [] false RRead [] true LTop None DIdle 3 [] false [] []))).
    ou ltac:(apply (Cancel3 (St [] false RRead [] false LTop None DIdle 2 [] false [] []))).
    ou ltac:(apply (Cancel2 (St [] false RRead [] false LTop None DIdle 1 [] false [] []))).
    ou ltac:(apply (Cancel1 (St [] false RRead [] false LTop None DIdle 0 [] false [] []))).
    go ltac:(apply (RelayGo _ _ init)). apply run_refl.
  - intros s' X. inversion X; subst; cbn in *; congruence.
Qed.

Print Assumptions C246_order. Print Assumptions C246_end. Print Assumptions C246_settles. Print Assumptions C246_waits_only_for_typing.
Print Assumptions C247_no_data_after_cancel. Print Assumptions C247_read_returns. Print Assumptions C247_later_reads. Print Assumptions C247_finite.
Print Assumptions C247_shutdown_returns. Print Assumptions C274_one_more_read. Print Assumptions C273_at_most. Print Assumptions C248_refuted.
Print Assumptions C249_refuted.
