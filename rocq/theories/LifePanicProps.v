(** C311, C312: the terminal after a panic in the application's code. Model: LifePanicModel. *)
From Verif Require Import Prelude LifeModel LifeSpec LifeProofs LifeProps LifePanicModel.

(** ** C311 *)
(** A panic in Init, Update or View: whatever happened before, the terminal is left in its normal modes (if the
    device accepts the operations). *)
Theorem C311_panic_in_loop_restores : forall altscreen o cs p, p <> InCommand ->
  let s := hist cs (fresh altscreen o) in running (pr s) = true -> accepts (wo s) -> normal (wo (dies_in p s)).
Proof.
  intros altscreen o cs p Hp s Hr Ha. pose proof (C17_end_restores_modes altscreen o cs Hr Ha) as [Hn _]. cbn [do] in Hn. unfold loop_end in Hn. fold s in Hn.
  rewrite Hr in Hn. destruct p; [exact Hn..|congruence].
Qed.
Example C311_case : let s := hist [CRun; CSuspend; CResume] (fresh true []) in running (pr s) = true /\ accepts (wo s) /\ modes (wo s) = (true, true) /\
  modes (wo (dies_in InUpdate s)) = (false, false).
Proof. cbn. repeat split. constructor. Qed.

(** ** C312 *)
(** Refuted: a command panics on a program just started; the terminal stays in raw mode and on the alternate screen. *)
Theorem C312_panic_in_command_refuted : exists cs, let s := hist cs (fresh true []) in
  running (pr s) = true /\ accepts (wo s) /\ raw (wo (dies_in InCommand s)) = true /\ alt (wo (dies_in InCommand s)) = true.
Proof. exists [CRun]. cbn. repeat split. constructor. Qed.

Print Assumptions C311_panic_in_loop_restores. Print Assumptions C312_panic_in_command_refuted.
