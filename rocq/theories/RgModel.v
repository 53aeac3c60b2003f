(** Model of the program's input-reader goroutines: /repo/tea/internal/application/program/program.go,
    startInputReader (529-593), stopInputReader (604-652), restartInputReader (656-668), as called by
    Run/Start (199, 327), Suspend (724, 740, 755) and Resume (845).

    Goroutines are numbered in the order they are started; the [i]-th start creates the [i]-th done
    channel and the [i]-th cancel function.  Every step is atomic; the goroutines and the caller interleave in
    any way.  Simplifications: one caller at a time (Suspend and Resume are not called concurrently);
    what a goroutine does between two checks of its context is one state, [GLoop], which it may leave at any
    time (end of input, error, cancellation, the quit channel). *)
From Verif Require Import Prelude.

Inductive gpc :=
| GLoop     (* 560-591: may read input *)
| GClose    (* about to run close(p.inputReaderDone), 546 *)
| GClear    (* about to run 550-556 *)
| GGone.
Inductive mpc :=
| MIdle
| MWait (done : option nat)   (* 632-639, with the channel captured at 608 *)
| MShut.                      (* 642-651 *)

Record st := St {
  n : nat;                     (* goroutines started *)
  pc : nat -> gpc;
  ggen : nat -> nat;           (* the generation each goroutine captured *)
  told : nat -> bool;          (* its context and reader have been cancelled *)
  closed : nat -> bool;        (* its done channel has been closed *)
  running : bool;              (* inputReaderRunning *)
  cancelF : option nat;        (* inputReaderCancel *)
  doneF : option nat;          (* inputReaderDone *)
  gen : nat;                   (* inputReaderGeneration *)
  main : mpc;
  panicked : bool;
  loop : bool                  (* Run or Start has not ended *)
}.
Definition upd {A} (f : nat -> A) (i : nat) (v : A) : nat -> A := fun j => if (j =? i)%nat then v else f j.

Definition init : st := St 0 (fun _ => GGone) (fun _ => 0%nat) (fun _ => false) (fun _ => false) false None None 0 MIdle false false.

(* 529-558 *)
Definition start (s : st) : st :=
  St (S (n s)) (upd (pc s) (n s) GLoop) (upd (ggen s) (n s) (S (gen s))) (upd (told s) (n s) false) (upd (closed s) (n s) false)
     true (Some (n s)) (Some (n s)) (S (gen s)) (main s) (panicked s) (loop s).
(* 656-668 *)
Definition restart (s : st) : st := if running s then s else start s.
(* 605-628; None when there is nothing to stop *)
Definition stop_begin (s : st) : option st :=
  match running s, cancelF s with
  | true, Some i => Some (St (n s) (pc s) (ggen s) (upd (told s) i true) (closed s) (running s) (cancelF s) (doneF s) (gen s) (MWait (doneF s)) (panicked s) (loop s))
  | _, _ => None
  end.
(* 646-651 *)
Definition stop_end (s : st) : st :=
  St (n s) (pc s) (ggen s) (told s) (closed s) false None None (S (gen s)) MIdle (panicked s) (loop s).
Definition set_main (s : st) (m : mpc) : st := St (n s) (pc s) (ggen s) (told s) (closed s) (running s) (cancelF s) (doneF s) (gen s) m (panicked s) (loop s).
Definition set_loop (s : st) (b : bool) : st := St (n s) (pc s) (ggen s) (told s) (closed s) (running s) (cancelF s) (doneF s) (gen s) (main s) (panicked s) b.
Definition set_pc (s : st) (i : nat) (p : gpc) : st := St (n s) (upd (pc s) i p) (ggen s) (told s) (closed s) (running s) (cancelF s) (doneF s) (gen s) (main s) (panicked s) (loop s).
(* 546: the channel is the field's value at that moment; closing a nil or a closed channel panics *)
Definition close_done (s : st) (i : nat) : st :=
  match doneF s with
  | Some c => if closed s c
              then St (n s) (pc s) (ggen s) (told s) (closed s) (running s) (cancelF s) (doneF s) (gen s) (main s) true (loop s)
              else St (n s) (upd (pc s) i GClear) (ggen s) (told s) (upd (closed s) c true) (running s) (cancelF s) (doneF s) (gen s) (main s) (panicked s) (loop s)
  | None => St (n s) (pc s) (ggen s) (told s) (closed s) (running s) (cancelF s) (doneF s) (gen s) (main s) true (loop s)
  end.
(* 550-556 *)
Definition clear (s : st) (i : nat) : st :=
  if (gen s =? ggen s i)%nat
  then St (n s) (upd (pc s) i GGone) (ggen s) (told s) (closed s) false None None (gen s) (main s) (panicked s) (loop s)
  else set_pc s i GGone.

Section Steps.
Variable timeouts : bool.   (* the 200 ms of stopInputReader (635) may pass *)
Variable again : bool.      (* Run or Start is called while an earlier reader has not been stopped *)

(** The goroutines, and a call of Suspend in progress. *)
Inductive step : st -> st -> Prop :=
| Leave s i : (i < n s)%nat -> pc s i = GLoop -> step s (set_pc s i GClose)
| CloseDone s i : (i < n s)%nat -> pc s i = GClose -> step s (close_done s i)
| Clear s i : (i < n s)%nat -> pc s i = GClear -> step s (clear s i)
| WaitDone s c : main s = MWait (Some c) -> closed s c = true -> step s (set_main s MShut)
| WaitTimeout s c : main s = MWait c -> timeouts = true -> step s (set_main s MShut)
| StopEnd s : main s = MShut -> step s (stop_end s).

(** The calls. *)
Inductive call : st -> st -> Prop :=
(* 144-199, 270-327 *)
| Run s : main s = MIdle -> loop s = false -> running s = false \/ again = true -> call s (set_loop (start s) true)
(* 159-173, 204-249, 284-299: the end of the event loop leaves the reader alone *)
| RunEnd s : loop s = true -> call s (set_loop s false)
| Resume s : main s = MIdle -> call s (restart s)
| Suspend s s' : main s = MIdle -> stop_begin s = Some s' -> call s s'.

Inductive run : st -> st -> Prop :=
| run_refl s : run s s
| run_step a b c : run a b -> step b c -> run a c
| run_call a b c : run a b -> call b c -> run a c.
Definition reached (s : st) : Prop := run init s.
End Steps.
