(** What a panic in the application's code does to the terminal: in Go a panicking goroutine runs its own deferred
    functions, then the process dies; other goroutines' deferred functions do not run.
    tea/internal/application/program/program.go: Init, Update and View are called by the goroutine of Run or Start
    (194, 237, 246 and 321, 364, 371), whose deferred function is LifeModel.cleanup; a command runs in a goroutine of its
    own without deferred function (484-495); the input reader's deferred function (547-560) leaves the terminal alone.
    No code of the library calls recover. *)
From Verif Require Import Prelude LifeModel.

Inductive place := InInit | InUpdate | InView | InCommand.
(** The state the dead process leaves. *)
Definition dies_in (p : place) (s : sys) : sys := match p with InInit | InUpdate | InView => cleanup s | InCommand => s end.
