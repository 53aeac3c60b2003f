(** C17, C18, C60: terminal modes over the life of a program. *)
From Verif Require Import Prelude LifeModel LifeSpec LifeProofs.

(* ---------- C17 ---------- *)

(** After any history of calls on any (even faulty) device: when the loop ends, for whatever
    reason, and the device accepts the exit operations, the terminal is back to normal. *)
Theorem C17_end_restores_modes altscreen o cs :
  let s := hist cs (fresh altscreen o) in
  running (pr s) = true -> accepts (wo s) ->
  normal (wo (do CEnd s)) /\ running (pr (do CEnd s)) = false.
Proof. intros s Hr Ha. apply loop_end_restores; auto. apply alt_ok_hist, alt_ok_fresh. Qed.

Example C17_example :
  let s := hist [CRun; CSuspend; CResume] (fresh true [false; true; true; false]) in
  running (pr s) = true /\ accepts (wo s) /\ modes (wo s) = (false, true).
Proof. cbn. repeat split. constructor. Qed.

(** Run fails because the device refuses the alternate screen (and accepts what follows):
    raw mode is undone, nothing is left behind. *)
Theorem C17_failed_run_restores_modes altscreen o cs b r s1 :
  let s := hist cs (fresh altscreen o) in
  running (pr s) = false -> normal (wo s) -> oracle (wo s) = b :: false :: r -> Forall (fun x => x = true) r ->
  run_begin s = (false, s1) ->
  normal (wo s1) /\ running (pr s1) = false.
Proof.
  intros s. generalize s. clear. intros s. unfold normal. intros H1 H2 H3 H4 H5. open_sys s.
  cbn [oracle wo] in H3. subst w_or. cbn [wo pr raw alt running] in *. destruct H2. subst.
  life_unfold; life; auto.
Qed.

(** The same for Start: if it does not get going because the device refuses the alternate
    screen, nothing is left behind. *)
Theorem C17_failed_start_restores_modes altscreen o cs b r ok s1 :
  let s := hist cs (fresh altscreen o) in
  running (pr s) = false -> normal (wo s) -> oracle (wo s) = b :: false :: r -> Forall (fun x => x = true) r ->
  start_begin s = (ok, s1) -> running (pr s1) = false ->
  normal (wo s1).
Proof.
  intros s. generalize s. clear. intros s. unfold normal. intros H1 H2 H3 H4 H5 H6. open_sys s.
  cbn [oracle wo] in H3. subst w_or. cbn [wo pr raw alt running] in *. destruct H2. subst.
  life_unfold; life; auto.
Qed.
Example C17_failed_start_example : exists s1, start_begin (fresh true [true; false]) = (true, s1) /\
  running (pr s1) = false /\ oracle (wo s1) = [].
Proof. eexists. split; [reflexivity|]. split; reflexivity. Qed.

Example C17_failed_run_example : exists s1, run_begin (fresh true [true; false]) = (false, s1) /\ oracle (wo s1) = [].
Proof. eexists. split; reflexivity. Qed.

(** Over a whole history on a working device, with Resume and ExecProcess called only while
    the program runs: whenever the program is not running the terminal is normal. *)
Theorem C17_normal_whenever_stopped altscreen o cs :
  let s := hist cs (fresh altscreen o) in
  Forall (fun b => b = true) o -> orderly cs (fresh altscreen o) ->
  running (pr s) = false -> normal (wo s).
Proof.
  intros s Ho Hord. subst s. apply calm_hist; auto. split; [apply alt_ok_fresh|]. split; auto. intros _. split; reflexivity.
Qed.
Example C17_orderly_example : orderly [CRun; CExec; CSuspend; CEnd; CStart; CResume; CEnd] (fresh true []) /\
  running (pr (hist [CRun; CExec; CSuspend; CEnd; CStart; CResume; CEnd] (fresh true []))) = false.
Proof. cbn. repeat split; auto; discriminate. Qed.

(** Run, Start and the end of the loop never touch the cursor's visibility. *)
Theorem C155_cursor_untouched_partial altscreen o cs :
  forallb (fun c => negb (touches_cursor c)) cs = true ->
  cur (wo (hist cs (fresh altscreen o))) = true.
Proof. intros H. rewrite cursor_hist by auto. reflexivity. Qed.

(** Refuted: after a Resume (or ExecProcess) the program ends with the cursor hidden. *)
Theorem C155_cursor_refuted : forall altscreen,
  let s := hist [CRun; CExec; CEnd] (fresh altscreen []) in
  running (pr s) = false /\ normal (wo s) /\ cur (wo s) = false.
Proof. intros []; repeat split. Qed.

(** Refuted: Resume after the program has ended puts the terminal back into raw mode and the
    alternate screen, with nothing left to restore it. *)
Theorem C156_resume_after_end_refuted :
  let s := hist [CRun; CSuspend; CEnd; CResume] (fresh true []) in
  running (pr s) = false /\ modes (wo s) = (true, true) /\
  s = do CEnd s.
Proof. repeat split. Qed.

(* ---------- C18 ---------- *)

(** Suspend puts the terminal into its normal state and stops reading keys (so that a child
    process gets them); the next successful Resume gives back exactly the modes that were active
    and reads keys again, whatever operations failed in between. *)
Theorem C18_suspend_resume_inverse s s1 s2 :
  suspended s = false -> suspend s = (true, s1) -> resume s1 = (true, s2) ->
  normal (wo s1) /\ suspended s1 = true /\ reader (pr s1) = false /\ running (pr s1) = running (pr s) /\
  modes (wo s2) = modes (wo s) /\ suspended s2 = false /\ reader (pr s2) = true /\ running (pr s2) = running (pr s).
Proof.
  intros H H1 H2. destruct (suspend_ok s s1 H H1) as (A & B & C & D & E & _).
  destruct (resume_ok _ s1 s2 B C H2) as (F & G & K & L). repeat split; auto; try apply B; congruence.
Qed.
(** On a device that accepts everything the cursor is shown while suspended. *)
Theorem C18_cursor_shown_while_suspended s s1 :
  suspended s = false -> accepts (wo s) -> suspend s = (true, s1) -> cur (wo s1) = true.
Proof. unfold suspended, accepts. intros H Ha E. open_sys s. life_unfold; life; auto. Qed.
Example C18_example : exists s1 s2, let s := hist [CRun] (fresh true []) in
  suspended s = false /\ modes (wo s) = (true, true) /\ suspend s = (true, s1) /\ resume s1 = (true, s2).
Proof. eexists _, _. repeat split. Qed.

Theorem C18_idempotent s :
  (suspended s = true -> suspend s = (true, s)) /\ (suspended s = false -> resume s = (true, s)).
Proof. split; [apply suspend_idem|apply resume_idem]. Qed.

(** A failed Suspend leaves the program unsuspended with its alternate screen and reader. *)
Theorem C18_failed_suspend s s1 : suspended s = false -> suspend s = (false, s1) ->
  suspended s1 = false /\ alt (wo s1) = alt (wo s) /\ reader (pr s1) = true /\
  (* raw mode is lost only if the device also refuses to re-enter it *)
  (raw (wo s) = true -> raw (wo s1) = false -> exists b o, oracle (wo s) = b :: false :: false :: o).
Proof.
  intros H H1. destruct (suspend_failed s s1 H H1) as (A & B & C & D). repeat split; auto. eapply suspend_modes_failed; eauto.
Qed.
Example C18_failed_suspend_example : exists s1, let s := hist [CRun] (fresh true [true; true; true; false]) in
  suspend s = (false, s1) /\ modes (wo s1) = (true, true).
Proof. eexists. split; reflexivity. Qed.

(** A failed Resume can be retried when it failed before entering the alternate screen. *)
Theorem C272_failed_resume_retry s s1 s2 :
  suspended s = false -> suspend s = (true, s1) -> resume s1 = (false, s2) ->
  suspended s2 = true /\
  (alt (wo s2) = false -> accepts (wo s2) ->
   exists s3, resume s2 = (true, s3) /\ modes (wo s3) = modes (wo s) /\ suspended s3 = false).
Proof.
  intros H H1 H2. destruct (suspend_ok s s1 H H1) as (A & B & C & _).
  split; [apply (resume_failed s1 s2 H2)|]. intros. eapply resume_retry; eauto.
Qed.
Example C18_retry_example : exists s1 s2, let s := hist [CRun] (fresh true [true; true; true; true; true; true; false]) in
  suspend s = (true, s1) /\ resume s1 = (false, s2) /\ alt (wo s2) = false /\ accepts (wo s2).
Proof. eexists _, _. repeat split. constructor. Qed.

(** Refuted: a Resume that fails at raw mode, after entering the alternate screen, can never
    succeed again, however often it is retried on a device that accepts everything. *)
Theorem C157_failed_resume_refuted : exists s1 s2, let s := hist [CRun] (fresh true [true; true; true; true; true; true; true; false]) in
  suspend s = (true, s1) /\ resume s1 = (false, s2) /\ accepts (wo s2) /\
  forall n, fst (resume (Nat.iter n (fun x => snd (resume x)) s2)) = false.
Proof.
  eexists _, _. split; [reflexivity|]. split; [reflexivity|]. split; [constructor|].
  intros n. match goal with |- fst (resume (Nat.iter n ?f ?S)) = _ => set (S0 := S) end.
  assert (G : alt (wo (Nat.iter n (fun x => snd (resume x)) S0)) = true /\ susp (pr (Nat.iter n (fun x => snd (resume x)) S0)) = Some (true, true)).
  { induction n as [|n IH]; [split; reflexivity|]. cbn [Nat.iter nat_rect]. destruct IH as [I1 I2].
    destruct (resume_dead _ _ I1 I2) as (s1 & E & F1 & F2). unfold Nat.iter in *. rewrite E. auto. }
  destruct G as [I1 I2]. destruct (resume_dead _ _ I1 I2) as (s1 & E & _). rewrite E. reflexivity.
Qed.

(* ---------- C60 ---------- *)

(** The external command only ever runs with the terminal in its normal state, and a
    successful call leaves modes and suspension as before, for ExecProcess and for the
    terminal-control variant with any options. *)
Theorem C60_exec_isolated isTTY starts transfer s sn s1 :
  suspended s = false -> exec_with_tty isTTY starts transfer s = (true, sn, s1) ->
  sn = Some (false, false) /\ suspended s1 = false /\ modes (wo s1) = modes (wo s).
Proof. apply exec_tty_ok. Qed.

(** On a working device also a command that cannot be started leaves everything as before, and
    the terminal's foreground belongs to the program again. *)
Theorem C60_exec_working_device isTTY starts transfer s :
  suspended s = false -> accepts (wo s) -> fg_child (wo s) = false ->
  let '(ok, sn, s1) := exec_with_tty isTTY starts transfer s in
  modes (wo s1) = modes (wo s) /\ suspended s1 = false /\ fg_child (wo s1) = false /\ (sn = None \/ sn = Some (false, false)).
Proof. apply exec_tty_accepts. Qed.
Example C60_example : exists s1, exec_with_tty true true true (hist [CRun] (fresh true [])) = (true, Some (false, false), s1)
  /\ modes (wo s1) = (true, true).
Proof. eexists. split; reflexivity. Qed.

(** Refuted for a program the user has suspended: ExecProcess resumes it. *)
Theorem C163_exec_while_suspended_refuted :
  let s := hist [CRun; CSuspend] (fresh true []) in
  suspended s = true /\ suspended (do CExec s) = false /\ modes (wo (do CExec s)) = (true, true).
Proof. repeat split. Qed.

Print Assumptions C17_end_restores_modes. Print Assumptions C17_failed_run_restores_modes. Print Assumptions C17_failed_start_restores_modes. Print Assumptions C17_normal_whenever_stopped.
Print Assumptions C155_cursor_untouched_partial. Print Assumptions C155_cursor_refuted. Print Assumptions C156_resume_after_end_refuted. Print Assumptions C18_suspend_resume_inverse.
Print Assumptions C18_cursor_shown_while_suspended. Print Assumptions C18_idempotent. Print Assumptions C18_failed_suspend. Print Assumptions C272_failed_resume_retry.
Print Assumptions C157_failed_resume_refuted. Print Assumptions C60_exec_isolated. Print Assumptions C60_exec_working_device. Print Assumptions C163_exec_while_suspended_refuted.
