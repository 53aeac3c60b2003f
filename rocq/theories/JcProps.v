(** C353-C358: external commands and the terminal's job control. *)
From Verif Require Import Prelude JcModel JcProofs.

(* ---------- specification ---------- *)
(* what happens without a key being pressed and without the shell: the program's and the command's own steps *)
Inductive own_steps (c : call) : st -> st -> Prop :=
| OHere s : own_steps c s s
| OApp s s' s'' : own_steps c s s' -> app s' = Running -> app_step c s' s'' -> own_steps c s s''
| OCmd s s' s'' : own_steps c s s' -> cmd s' = Some Running -> cmd_step c s' s'' -> own_steps c s s''.
(* the program's steps only *)
Inductive app_steps (c : call) : st -> st -> Prop :=
| PHere s : app_steps c s s
| PStep s s' s'' : app s = Running -> app_step c s s' -> app_steps c s' s'' -> app_steps c s s''.
Definition returned (s : st) : Prop := exists b, pc s = Returned b.
(* whatever happens from now on, keys and shell included, the call does not return, the TUI does not come back, the shell does not get the
   terminal and the command reads nothing more *)
Definition locked (c : call) (s : st) : Prop :=
  forall s', steps c s s' -> ~ returned s' /\ tui s' = false /\ fg s' <> GShell /\ inputs s' = inputs s.
(* the call never returns *)
Definition never_returns (c : call) (s : st) : Prop := forall s', steps c s s' -> ~ returned s'.

Lemma own_all c s s' : own_steps c s s' -> steps c s s'.
Proof.
  intros H. induction H as [s|s s' s'' H IH R K|s s' s'' H IH R K]; [apply Here| |].
  - apply (Then _ _ s' s'' IH). exact (SApp _ _ _ R K).
  - apply (Then _ _ s' s'' IH). exact (SCmd _ _ _ R K).
Qed.
Lemma steps_trans c s s' s'' : steps c s s' -> steps c s' s'' -> steps c s s''.
Proof. intros A B. induction B as [x|x y z B IH K]; [exact A|]. exact (Then _ _ _ _ (IH A) K). Qed.

(* ---------- C353 ---------- *)
(** When the call has returned, with whatever result, the program's process group has the terminal and SIGTTOU is back at its default. *)
Theorem C353_terminal_back c s : reach c s -> returned s -> app s = Running -> fg s = GApp /\ ignTTOU s = false.
Proof.
  intros H [b Hb] R. pose proof (inv c s H) as I. destruct s as [p a m r f g t n]. cbn in *. subst.
  destruct f; [|exfalso|discriminate].
  - split; [reflexivity|]. destruct g; [|reflexivity]. destruct t; cbn in I; discriminate.
  - unfold invb in I. cbn in I. destruct (transfer c); discriminate.
Qed.
(** When the command has ended, the program's own steps lead to the return of the call and to the TUI, provided Resume succeeds. *)
Theorem C353_returns c s : reach c s -> pc s = AtWait -> app s = Running -> cmd s = Some Gone ->
  exists s', app_steps c s s' /\ pc s' = Returned false /\ tui s' = true /\ reaped s' = true.
Proof.
  intros H P R M. pose proof (inv c s H) as I. destruct s as [p a m r f g t n]. cbn in *. subst.
  assert (W := AWait c (St AtWait Running (Some Gone) r f g t n) eq_refl eq_refl). cbn in W.
  destruct (transfer c) eqn:T; cbn in *.
  - assert (G : g = true). { destruct g; [reflexivity|exfalso]. destruct c as [|[|] [|]]; try discriminate T; destruct f, t; discriminate I. } subst g.
    eexists. split.
    + eapply PStep; [reflexivity|exact W|]. eapply PStep; [reflexivity|apply AReclaim; cbn; auto|]. eapply PStep; [reflexivity|apply (AResume _ _ false); reflexivity|]. apply PHere.
    + cbn. auto.
  - eexists. split.
    + eapply PStep; [reflexivity|exact W|]. eapply PStep; [reflexivity|apply (AResume _ _ false); reflexivity|]. apply PHere.
    + cbn. auto.
Qed.
(** No call can be stuck before that: with the program running there is always a step of the program, except while it waits for the command. *)
Theorem C353_no_other_wait c s : reach c s -> app s = Running -> ~ returned s -> pc s <> AtWait -> exists s', app_step c s s'.
Proof.
  intros H R N W. pose proof (inv c s H) as I. destruct s as [p a m r f g t n]. cbn in *. subst.
  destruct p; try (exfalso; apply W; reflexivity); try (exfalso; apply N; eexists; reflexivity).
  - eexists. apply AIgnore. reflexivity.
  - eexists. apply ASuspend. reflexivity.
  - eexists. apply AStart. reflexivity.
  - eexists. apply ATransfer. reflexivity.
  - destruct g.
    + eexists. apply AReclaim; cbn; auto.
    + assert (D : f = GApp \/ f <> GApp) by (destruct f; auto; right; discriminate). destruct D as [-> | D].
      * eexists. apply AReclaim; cbn; auto.
      * eexists. apply AReclaimStops; cbn; auto.
  - eexists. apply (AResume _ _ failed). reflexivity.
Qed.

Ltac app_go H tac := match type of H with own_steps ?c ?a ?s => let H' := fresh in
  eassert (H' : own_steps c a _) by (eapply (OApp c a s); [exact H|reflexivity|tac]); cbn in H'; clear H; rename H' into H end.
Ltac cmd_go H tac := match type of H with own_steps ?c ?a ?s => let H' := fresh in
  eassert (H' : own_steps c a _) by (eapply (OCmd c a s); [exact H|reflexivity|tac]); cbn in H'; clear H; rename H' into H end.
(* the command has been started *)
Lemma started c : exists g, own_steps c start (St (if transfer c then AtTransfer else AtWait) Running (Some Running) false GApp g false 0).
Proof.
  eexists. pose proof (OApp c _ _ _ (OHere c start) eq_refl (AIgnore c start eq_refl)) as H. cbn in H.
  app_go H ltac:(apply ASuspend; reflexivity). app_go H ltac:(apply AStart; reflexivity). exact H.
Qed.

(* ---------- C354 ---------- *)
Lemma stopped_locked n g r :
  let s := St AtWait Running (Some Stopped) r GCmd g false n in locked (ExecTTY true true) s.
Proof.
  intros s s' H.
  assert (K : exists g' r', s' = St AtWait Running (Some Stopped) r' GCmd g' false n).
  { remember (ExecTTY true true) as c eqn:E. remember s as s0 eqn:E0. unfold s in E0.
    induction H as [s1|s1 s2 s3 H IH K]; [exists g, r; exact E0|]. destruct (IH E0) as (g' & r' & ->). subst c. clear IH H.
    inversion K as [s4 R K1 | s4 R K1 | s4 R K1 | s4 K1]; subst; inversion K1; subst; cbn in *; try discriminate; try congruence.
    all: destruct handled; exists g', r'; reflexivity. }
  destruct K as (g' & r' & ->). unfold returned. cbn. repeat split; try discriminate. intros [b D]. discriminate D.
Qed.
(** With both options on, as documented: Ctrl-Z in the command leaves the terminal locked, from every state in which the command has it. *)
Theorem C354_ctrl_z_refuted s : reach (ExecTTY true true) s -> cmd s = Some Running -> fg s = GCmd ->
  exists s', step (ExecTTY true true) s s' /\ locked (ExecTTY true true) s'.
Proof.
  intros H M F. pose proof (inv _ s H) as I. destruct s as [p a m r f g t n]. cbn in *. subst.
  assert (P : p = AtWait). { destruct p as [| | | | | |[|]|[|]]; try reflexivity; exfalso; destruct g, t, a; discriminate I. } subst p.
  assert (A : a = Running /\ t = false). { destruct a, t, g, r; try discriminate I; auto. } destruct A as [-> ->].
  eexists. split.
  - apply SKey; [reflexivity|]. apply (CtrlZ _ _ false).
  - cbn. apply stopped_locked.
Qed.
(** For a command in the program's own group the key stops both, and the shell's fg brings both back. *)
Theorem C354_own_group_partial c s : c = Exec \/ c = ExecTTY false false \/ c = ExecTTY true false -> reach c s ->
  (cmd s = Some Stopped -> app s <> Running) /\
  (app s = Stopped -> exists s1 s2, shell_step c s s1 /\ shell_step c s1 s2 /\ app s2 = Running /\ fg s2 = GApp /\ cmd s2 <> Some Stopped).
Proof.
  intros C H. assert (G : cmd_group c = GApp /\ own c = false) by (destruct C as [-> | [-> | ->]]; auto). destruct G as [G O].
  pose proof (inv c s H) as I. destruct s as [p a m r f g t n]. split.
  - cbn. intros ->. intros ->. apply andb_prop in I. destruct I as [_ I]. rewrite O in I. discriminate I.
  - cbn. intros ->. eexists. eexists. split; [apply ShTake; cbn; discriminate|]. split; [apply ShFg; reflexivity|].
    rewrite G. cbn. repeat split. destruct m as [[| |]|]; cbn; discriminate.
Qed.

(* ---------- C355 ---------- *)
(** With both options on, a command that reads from the terminal at once can be stopped for good: no key is pressed, and it has not read anything. *)
Theorem C355_early_read_refuted : exists s, own_steps (ExecTTY true true) start s /\ inputs s = 0%nat /\ locked (ExecTTY true true) s.
Proof.
  destruct (started (ExecTTY true true)) as [g H]. cbn in H.
  assert (D : GApp <> GCmd) by discriminate.
  cmd_go H ltac:(apply CReadStops; exact D). app_go H ltac:(apply ATransfer; reflexivity).
  eexists. split; [exact H|].
  split; [reflexivity|]. cbn. apply stopped_locked.
Qed.
(** Once the program waits for the command, a running command has the terminal and no read stops it. *)
Theorem C355_after_transfer_partial s : reach (ExecTTY true true) s -> pc s = AtWait -> cmd s = Some Running ->
  fg s = GCmd /\ forall s', cmd_step (ExecTTY true true) s s' -> cmd s' = Some Running \/ cmd s' = Some Gone.
Proof.
  intros H P M. pose proof (inv _ s H) as I. destruct s as [p a m r f g t n]. cbn in *. subst.
  assert (F : f = GCmd). { destruct f, g, t, a, r; try reflexivity; discriminate I. } subst f.
  split; [reflexivity|]. intros s' K. inversion K; subst; cbn in *; auto; congruence.
Qed.
(** A command in the program's own group that does not ask for a transfer reads whenever it likes, until a key is pressed. *)
Lemma own_keeps c s : transfer c = false -> cmd_group c = GApp -> own_steps c start s -> fg s = GApp /\ app s = Running /\ cmd s <> Some Stopped.
Proof.
  intros T G H. remember start as s0 eqn:E. induction H as [s|s s' s'' H IH R K|s s' s'' H IH R K].
  - subst. cbn. repeat split; auto; discriminate.
  - destruct (IH E) as (F & A & M). inversion K; subst; cbn in *; repeat split; auto; try congruence; try discriminate.
    all: exfalso; pose proof (inv c s' (own_all _ _ _ H)) as I; destruct s' as [p a m r f g t n]; cbn in *; subst;
      unfold invb in I; cbn in I; rewrite T in I; cbn in I; destruct t, g, (isTTY c), m as [[| |]|]; discriminate.
  - destruct (IH E) as (F & A & M). inversion K; subst; cbn in *; repeat split; auto; try congruence; try discriminate.
Qed.
Theorem C355_own_group_reads_partial c s : c = Exec \/ c = ExecTTY false false -> own_steps c start s -> cmd s = Some Running ->
  exists s', cmd_step c s s' /\ cmd s' = Some Running /\ inputs s' = S (inputs s).
Proof.
  intros C H M. assert (G : transfer c = false /\ cmd_group c = GApp) by (destruct C as [-> | ->]; auto). destruct G as [T G].
  destruct (own_keeps c s T G H) as (F & _). eexists. split; [apply CRead; congruence|]. cbn. auto.
Qed.

(* ---------- C356 ---------- *)
Lemma no_inputs s : reach (ExecTTY false true) s -> inputs s = 0%nat.
Proof.
  intros H. unfold reach in H. remember start as s0 eqn:E. remember (ExecTTY false true) as c eqn:Ec. induction H as [s|s s' s'' H IH K].
  - subst. reflexivity.
  - specialize (IH E). assert (R : reach c s') by (subst; exact H). pose proof (inv c s' R) as I. subst c.
    inversion K as [s4 A K1 | s4 A K1 | s4 A K1 | s4 K1]; subst; inversion K1; subst; cbn in *; auto.
    exfalso. destruct s' as [p a m r f g t n]. cbn in *. subst. discriminate I.
Qed.
(** A process group of its own without the terminal: the command never reads anything, and one that tries never ends. *)
Theorem C356_group_only_refuted :
  (forall s, reach (ExecTTY false true) s -> inputs s = 0%nat) /\
  (forall s s', reach (ExecTTY false true) s -> pc s = AtWait -> cmd_step (ExecTTY false true) s s' -> cmd s' <> Some Gone -> cmd s = Some Running -> never_returns (ExecTTY false true) s').
Proof.
  split; [exact no_inputs|]. intros s s1 H P K N M s' H'.
  assert (I : invb (ExecTTY false true) s = true) by (apply inv; exact H).
  assert (S1 : cmd s1 = Some Stopped /\ pc s1 = AtWait /\ step (ExecTTY false true) s s1).
  { inversion K; subst; cbn in *; try congruence.
    - exfalso. destruct s as [p a m r f g t n]. cbn in *. subst. discriminate I.
    - rewrite M. repeat split; auto. exact (SCmd _ _ _ M K). }
  destruct S1 as (C1 & P1 & K1).
  assert (R1 : reach (ExecTTY false true) s1) by exact (Then _ _ _ _ H K1).
  assert (X : cmd s' = Some Stopped /\ pc s' = AtWait).
  { clear H K N M I K1 P s. remember (ExecTTY false true) as c eqn:Ec. induction H' as [s|s s2 s3 H' IH K]; [auto|].
    destruct (IH C1 P1 R1) as [C2 P2]. assert (I : invb c s2 = true) by (apply inv; exact (steps_trans _ _ _ _ R1 H')). subst c.
    inversion K as [s4 A K1 | s4 A K1 | s4 A K1 | s4 K1]; subst; inversion K1; subst; cbn in *; rewrite ?C2; auto; try congruence.
    - destruct handled, (grp_eqb (fg s2) GCmd); cbn; auto.
    - destruct handled, (grp_eqb (fg s2) GCmd); cbn; auto. }
  destruct X as [_ X]. intros [b D]. congruence.
Qed.
(** The terminal without a process group: either the command is killed at once, or its first read stops it and the program with it. *)
Lemma transfer_fg s : own_steps (ExecTTY true false) start s -> fg s = match pc s with AtWait | AtReclaim => GCmd | _ => GApp end.
Proof.
  intros H. remember start as s0 eqn:E. induction H as [s|s s' s'' H IH R K|s s' s'' H IH R K].
  - subst. reflexivity.
  - specialize (IH E). inversion K; subst; cbn in *; auto; repeat match goal with A : pc s' = _ |- _ => rewrite A in *; clear A end; auto.
  - specialize (IH E). inversion K; subst; cbn in *; auto.
Qed.
Theorem C356_transfer_only_refuted s : own_steps (ExecTTY true false) start s -> cmd s = Some Running ->
  (pc s = AtTransfer -> exists s', app_step (ExecTTY true false) s s' /\ cmd s' = Some Gone) /\
  (pc s = AtWait -> forall s', cmd_step (ExecTTY true false) s s' -> cmd s' = Some Gone \/ (cmd s' = Some Stopped /\ (app s = Running -> app s' = Stopped) /\ inputs s' = inputs s)).
Proof.
  intros H M. pose proof (transfer_fg s H) as F. split.
  - intros P. eexists. split; [apply ATransferRefused; [exact P|cbn; discriminate]|]. reflexivity.
  - intros P s' K. rewrite P in F. inversion K; subst; cbn in *; try congruence; auto. right. rewrite M. repeat split. intros ->. reflexivity.
Qed.

(* ---------- C357 ---------- *)
(** When the hand-over of the terminal is refused the command is killed and never waited for. *)
Theorem C357_zombie_refuted : exists s, reach (ExecTTY true false) s /\ pc s = Returned true /\ cmd s = Some Gone /\ reaped s = false.
Proof.
  destruct (started (ExecTTY true false)) as [g H]. cbn in H.
  assert (D : GApp <> GCmd) by discriminate.
  app_go H ltac:(apply ATransferRefused; [reflexivity|exact D]). app_go H ltac:(apply (AResume _ _ true); reflexivity).
  eexists. split; [exact (own_all _ _ _ H)|]. cbn. auto.
Qed.
(** In all other cases no process of the command is left when the call has returned. *)
Theorem C357_reaped_partial c s : reach c s -> returned s -> pc s = Returned false \/ c <> ExecTTY true false ->
  cmd s = None \/ (cmd s = Some Gone /\ reaped s = true).
Proof.
  intros H [b Hb] D. pose proof (inv c s H) as I. destruct s as [p a m r f g t n]. cbn in *. subst.
  destruct m as [[| |]|]; [exfalso; clear D H; destruct c as [|[|] [|]], b, f, g, a, r; discriminate I|exfalso; clear D H; destruct c as [|[|] [|]], b, f, g, a, r; discriminate I| |left; reflexivity].
  right. split; [reflexivity|]. destruct r; [reflexivity|]. exfalso.
  assert (X : b = false \/ c <> ExecTTY true false) by (destruct D as [D|D]; [left; injection D as ->; reflexivity|right; exact D]). clear D H.
  destruct c as [|[|] [|]], b, f, g, a; try discriminate I; destruct X as [X|X]; try discriminate X; apply X; reflexivity.
Qed.

(* ---------- C358 ---------- *)
(** Ctrl-C while a command started with ExecProcess handles it (a Python prompt, a pager): the program ends. *)
Theorem C358_ctrl_c_refuted : exists s s', reach Exec s /\ cmd s = Some Running /\ app s = Running /\ key_step Exec s s' /\ cmd s' = Some Running /\ app s' = Gone.
Proof.
  destruct (started Exec) as [g H]. cbn in H.
  eexists. eexists. split; [exact (own_all _ _ _ H)|]. split; [reflexivity|]. split; [reflexivity|]. split; [apply (CtrlC _ _ true)|]. cbn. auto.
Qed.
(** With both options on, once the command has the terminal no key ends or stops the program. *)
Theorem C358_own_terminal_partial s s' : reach (ExecTTY true true) s -> pc s = AtWait -> key_step (ExecTTY true true) s s' -> app s' = Running.
Proof.
  intros H P K. pose proof (inv _ s H) as I. destruct s as [p a m r f g t n]. cbn in *. subst.
  assert (F : f = GCmd /\ a = Running). { destruct f, g, t, a, r, m as [[| |]|]; try discriminate I; auto. }
  destruct F as [-> ->]. inversion K; subst; cbn; destruct handled; reflexivity.
Qed.

(* ---------- the hypotheses are met ---------- *)
(* a whole run with both options: the command gets the terminal, reads once, ends; the call returns *)
Example Jc_run : exists s s', own_steps (ExecTTY true true) start s /\ pc s = AtWait /\ cmd s = Some Running /\ fg s = GCmd /\ inputs s = 1%nat /\
  own_steps (ExecTTY true true) start s' /\ pc s' = Returned false /\ inputs s' = 1%nat /\ app s' = Running /\ fg s' = GApp.
Proof.
  destruct (started (ExecTTY true true)) as [g H]. cbn in H.
  app_go H ltac:(apply ATransfer; reflexivity). cmd_go H ltac:(apply CRead; reflexivity).
  eexists. pose proof H as H0. cmd_go H ltac:(apply CExit). app_go H ltac:(apply AWait; reflexivity).
  assert (I : invb (ExecTTY true true) (St AtReclaim Running (Some Gone) true GCmd g false 1) = true) by exact (inv _ _ (own_all _ _ _ H)).
  assert (g = true) by (destruct g; [reflexivity|discriminate I]). subst g.
  app_go H ltac:(apply AReclaim; [reflexivity|left; reflexivity]). app_go H ltac:(apply (AResume _ _ false); reflexivity).
  eexists. split; [exact H0|]. repeat (split; [reflexivity|]). split; [exact H|]. cbn. auto.
Qed.
(* a command in a group of its own without the terminal that tries to read; one in the program's group that does *)
Example Jc_group_only : exists s s', own_steps (ExecTTY false true) start s /\ pc s = AtWait /\ cmd_step (ExecTTY false true) s s' /\ cmd s' <> Some Gone.
Proof.
  destruct (started (ExecTTY false true)) as [g H]. cbn in H. eexists. eexists. split; [exact H|]. split; [reflexivity|].
  split; [apply CReadStops; discriminate|]. discriminate.
Qed.
(* Ctrl-Z while a command in the program's group runs stops both *)
Example Jc_stopped : exists s, reach Exec s /\ app s = Stopped /\ cmd s = Some Stopped.
Proof.
  destruct (started Exec) as [g H]. cbn in H. eexists. split.
  - apply (Then _ _ _ _ (own_all _ _ _ H)). apply SKey; [reflexivity|]. apply (CtrlZ _ _ false).
  - cbn. auto.
Qed.
(* with TransferForeground only, a kernel that accepts: the first read stops the program *)
Example Jc_transfer_only : exists s s', own_steps (ExecTTY true false) start s /\ pc s = AtWait /\ app s = Running /\ cmd_step (ExecTTY true false) s s' /\ app s' = Stopped.
Proof.
  destruct (started (ExecTTY true false)) as [g H]. cbn in H. app_go H ltac:(apply ATransfer; reflexivity).
  eexists. eexists. split; [exact H|]. split; [reflexivity|]. split; [reflexivity|]. split; [apply CReadStops; discriminate|]. reflexivity.
Qed.

Print Assumptions C353_terminal_back. Print Assumptions C353_returns. Print Assumptions C353_no_other_wait. Print Assumptions C354_ctrl_z_refuted.
Print Assumptions C354_own_group_partial. Print Assumptions C355_early_read_refuted. Print Assumptions C355_after_transfer_partial. Print Assumptions C355_own_group_reads_partial.
Print Assumptions C356_group_only_refuted. Print Assumptions C356_transfer_only_refuted. Print Assumptions C357_zombie_refuted. Print Assumptions C357_reaped_partial.
Print Assumptions C358_ctrl_c_refuted. Print Assumptions C358_own_terminal_partial.
