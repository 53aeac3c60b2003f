(** Model of external commands run at the same time, each by ExecProcess in its own command goroutine
    (program.go executeCommand 481-493 starts one goroutine per command, so a Batch of two runs both):
    /repo/tea/internal/application/program/program.go, Suspend (709-772), Resume (797-857), ExecProcess (909-939).

    One step is one critical section of p.mu (or the stretch between two).  Simplifications: the
    device accepts every operation (failures are in LifeModel); the input reader is left out (RgModel), the
    cursor too; the child leaves the modes alone. *)
From Verif Require Import Prelude.

Inductive tpc :=
| TIdle
| TSusp                        (* Suspend has seen suspended = false and unlocked (721-724) *)
| TChild                       (* the external command runs (927) *)
| TRes (r a : bool)            (* Resume has captured the state (804-811) *)
| TRes2 (r a : bool)           (* the alternate screen has been entered again (820-827) *)
| TDone (ok : bool).

Record st := St { raw : bool; alt : bool; susp : option (bool * bool); pc : nat -> tpc }.
Definition upd (f : nat -> tpc) (i : nat) (v : tpc) : nat -> tpc := fun j => if (j =? i)%nat then v else f j.

Section Threads.
Variable overlap : bool.   (* a command may start while another has not returned *)

Inductive step : st -> st -> Prop :=
(* 709-721 *)
| Begin s i : pc s i = TIdle -> overlap = true \/ (forall j, pc s j = TIdle \/ exists ok, pc s j = TDone ok) ->
    step s (St (raw s) (alt s) (susp s) (upd (pc s) i (match susp s with Some _ => TChild | None => TSusp end)))
(* 726-771 *)
| SuspendEnd s i : pc s i = TSusp ->
    step s (St false false (Some (raw s, alt s)) (upd (pc s) i TChild))
(* 927-931, 798-811: the command has ended; Resume begins *)
| ChildEnd s i : pc s i = TChild ->
    step s (St (raw s) (alt s) (susp s) (upd (pc s) i (match susp s with Some (r, a) => TRes r a | None => TDone true end)))
(* 819-827; entering it twice is an error (ansi.go:371-373) *)
| ResumeAlt s i r a : pc s i = TRes r a ->
    step s (if a && alt s then St (raw s) (alt s) (susp s) (upd (pc s) i (TDone false))
            else St (raw s) (alt s || a) (susp s) (upd (pc s) i (TRes2 r a)))
(* 829-842; likewise (ansi.go:468-470) *)
| ResumeRaw s i r a : pc s i = TRes2 r a ->
    step s (if r && raw s then St (raw s) (alt s) (susp s) (upd (pc s) i (TDone false))
            else St (raw s || r) (alt s) None (upd (pc s) i (TDone true))).

Inductive run : st -> st -> Prop :=
| run_refl s : run s s
| run_step a b c : run a b -> step b c -> run a c.
End Threads.

(** The running program: raw mode, and the alternate screen if configured; no command yet. *)
Definition init (r a : bool) : st := St r a None (fun _ => TIdle).
