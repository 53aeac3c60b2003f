(** Model of the cancelable input reader: /repo/tea/internal/infrastructure/input/cancelable_reader.go
    (pipe mode; the fallback without a pipe, 203-236, is not modelled), as the goroutines it starts:
    the relay (122-153), the read loop (158-198), the caller of Read (245-263), and the caller of
    Cancel and WaitForShutdown (276-292, 327-359).

    A step is one atomic action of one goroutine; they interleave in any way.  Simplifications:
    p in Read(p) is at least 256 bytes (bufio's buffer, reader.go:33); Read and Cancel are each
    called from one goroutine; errors of the input other than its end are not distinguished from it;
    the pipe holds up to [cap] bytes. *)
From Verif Require Import Prelude.

Inductive relay_pc := RTop | RRead | RWrite (d : list Z) (last : bool) | RDead.
Inductive loop_pc := LTop | LRead | LSend (d : list Z) (err : bool) | LDead.
Inductive cons_pc := DIdle | DWait.

Record st := St {
  src : list Z;                    (* bytes typed and not yet taken from the input *)
  eof : bool;                      (* the input has ended *)
  relay : relay_pc;
  pipe : list Z;
  wclosed : bool;                  (* the pipe's write end is closed *)
  loop : loop_pc;
  ch : option (list Z * bool);     (* readCh, one place: data and whether an error comes with it *)
  cons : cons_pc;                  (* the caller of Read *)
  stage : nat;                     (* the canceller: 0 not begun; 1 canceled stored; 2 done closed; 3 write end closed;
                                      4 deadline set, Cancel has returned; 5 the read loop has ended; 6 WaitForShutdown has returned *)
  got : list Z;                    (* ghost: all bytes returned by Read, in order *)
  ended : bool;                    (* a Read has returned an error *)
  taken : list Z;                  (* ghost: all bytes taken from the input *)
  typed : list Z                   (* ghost: all bytes typed *)
}.
Definition canceled (s : st) : bool := (1 <=? stage s)%nat.
Definition done (s : st) : bool := (2 <=? stage s)%nat.

Definition init : st := St [] false RTop [] false LTop None DIdle 0 [] false [] [].

Section Reader.
Variable cap : nat.          (* capacity of the pipe *)
Variable deadlines : bool.   (* the input supports SetReadDeadline *)

(** The actions of the reader's goroutines and of a Read in progress. *)
Inductive step : st -> st -> Prop :=
(* cancelable_reader.go:130-134 *)
| RelayStop s : relay s = RTop -> done s = true ->
    step s (St (src s) (eof s) RDead (pipe s) true (loop s) (ch s) (cons s) (stage s) (got s) (ended s) (taken s) (typed s))
| RelayGo s : relay s = RTop -> done s = false ->
    step s (St (src s) (eof s) RRead (pipe s) (wclosed s) (loop s) (ch s) (cons s) (stage s) (got s) (ended s) (taken s) (typed s))
(* 137: data, possibly together with the end of the input *)
| RelayData s a b last : relay s = RRead -> src s = a ++ b -> a <> [] -> (length a <= 4096)%nat -> (last = true -> b = [] /\ eof s = true) ->
    step s (St b (eof s) (RWrite a last) (pipe s) (wclosed s) (loop s) (ch s) (cons s) (stage s) (got s) (ended s) (taken s ++ a) (typed s))
(* 137, 148-151: the end of the input, or the deadline set by Cancel has passed *)
| RelayEnd s : relay s = RRead -> src s = [] -> eof s = true ->
    step s (St (src s) (eof s) RDead (pipe s) true (loop s) (ch s) (cons s) (stage s) (got s) (ended s) (taken s) (typed s))
| RelayDeadline s : relay s = RRead -> deadlines = true -> stage s = 4%nat \/ stage s = 5%nat ->
    step s (St (src s) (eof s) RDead (pipe s) true (loop s) (ch s) (cons s) (stage s) (got s) (ended s) (taken s) (typed s))
(* 139-146: some of the data fits into the pipe; all of it; or the pipe is closed *)
| RelayPart s a b last : relay s = RWrite (a ++ b) last -> wclosed s = false -> a <> [] -> b <> [] -> (length (pipe s) + length a <= cap)%nat ->
    step s (St (src s) (eof s) (RWrite b last) (pipe s ++ a) (wclosed s) (loop s) (ch s) (cons s) (stage s) (got s) (ended s) (taken s) (typed s))
| RelayAll s a : relay s = RWrite a false -> wclosed s = false -> (length (pipe s) + length a <= cap)%nat ->
    step s (St (src s) (eof s) RTop (pipe s ++ a) (wclosed s) (loop s) (ch s) (cons s) (stage s) (got s) (ended s) (taken s) (typed s))
| RelayLast s a : relay s = RWrite a true -> wclosed s = false -> (length (pipe s) + length a <= cap)%nat ->
    step s (St (src s) (eof s) RDead (pipe s ++ a) true (loop s) (ch s) (cons s) (stage s) (got s) (ended s) (taken s) (typed s))
| RelayBroken s a last : relay s = RWrite a last -> wclosed s = true ->
    step s (St (src s) (eof s) RDead (pipe s) true (loop s) (ch s) (cons s) (stage s) (got s) (ended s) (taken s) (typed s))
(* 165-169 *)
| LoopStop s : loop s = LTop -> done s = true ->
    step s (St (src s) (eof s) (relay s) (pipe s) (wclosed s) LDead (ch s) (cons s) (stage s) (got s) (ended s) (taken s) (typed s))
| LoopGo s : loop s = LTop -> done s = false ->
    step s (St (src s) (eof s) (relay s) (pipe s) (wclosed s) LRead (ch s) (cons s) (stage s) (got s) (ended s) (taken s) (typed s))
(* 172-182 *)
| LoopData s a b : loop s = LRead -> pipe s = a ++ b -> a <> [] -> (length a <= 256)%nat ->
    step s (St (src s) (eof s) (relay s) b (wclosed s) (LSend a false) (ch s) (cons s) (stage s) (got s) (ended s) (taken s) (typed s))
| LoopEnd s : loop s = LRead -> pipe s = [] -> wclosed s = true ->
    step s (St (src s) (eof s) (relay s) (pipe s) (wclosed s) (LSend [] true) (ch s) (cons s) (stage s) (got s) (ended s) (taken s) (typed s))
(* 185-196 *)
| LoopSend s d e : loop s = LSend d e -> ch s = None ->
    step s (St (src s) (eof s) (relay s) (pipe s) (wclosed s) (if e then LDead else LTop) (Some (d, e)) (cons s) (stage s) (got s) (ended s) (taken s) (typed s))
| LoopDrop s d e : loop s = LSend d e -> done s = true ->
    step s (St (src s) (eof s) (relay s) (pipe s) (wclosed s) LDead (ch s) (cons s) (stage s) (got s) (ended s) (taken s) (typed s))
(* 251-262: a waiting Read *)
| ReadData s d e : cons s = DWait -> ch s = Some (d, e) ->
    step s (St (src s) (eof s) (relay s) (pipe s) (wclosed s) (loop s) None DIdle (stage s) (got s ++ d) (ended s || e) (taken s) (typed s))
| ReadDone s : cons s = DWait -> done s = true ->
    step s (St (src s) (eof s) (relay s) (pipe s) (wclosed s) (loop s) (ch s) DIdle (stage s) (got s) true (taken s) (typed s)).

(** The actions from outside: typing, the end of the input, a call of Read, Cancel and WaitForShutdown. *)
Inductive outside : st -> st -> Prop :=
| Typing s b : eof s = false ->
    outside s (St (src s ++ [b]) (eof s) (relay s) (pipe s) (wclosed s) (loop s) (ch s) (cons s) (stage s) (got s) (ended s) (taken s) (typed s ++ [b]))
| Ending s : outside s (St (src s) true (relay s) (pipe s) (wclosed s) (loop s) (ch s) (cons s) (stage s) (got s) (ended s) (taken s) (typed s))
(* 247-249 *)
| ReadCall s : cons s = DIdle -> canceled s = false ->
    outside s (St (src s) (eof s) (relay s) (pipe s) (wclosed s) (loop s) (ch s) DWait (stage s) (got s) (ended s) (taken s) (typed s))
| ReadCanceled s : cons s = DIdle -> canceled s = true ->
    outside s (St (src s) (eof s) (relay s) (pipe s) (wclosed s) (loop s) (ch s) DIdle (stage s) (got s) true (taken s) (typed s))
(* 278-286, 304-318: canceled, done, the pipe, the deadline *)
| Cancel1 s : stage s = 0%nat ->
    outside s (St (src s) (eof s) (relay s) (pipe s) (wclosed s) (loop s) (ch s) (cons s) 1 (got s) (ended s) (taken s) (typed s))
| Cancel2 s : stage s = 1%nat ->
    outside s (St (src s) (eof s) (relay s) (pipe s) (wclosed s) (loop s) (ch s) (cons s) 2 (got s) (ended s) (taken s) (typed s))
| Cancel3 s : stage s = 2%nat ->
    outside s (St (src s) (eof s) (relay s) (pipe s) true (loop s) (ch s) (cons s) 3 (got s) (ended s) (taken s) (typed s))
| Cancel4 s : stage s = 3%nat ->
    outside s (St (src s) (eof s) (relay s) (pipe s) (wclosed s) (loop s) (ch s) (cons s) 4 (got s) (ended s) (taken s) (typed s))
(* 329-335 *)
| WaitLoop s : stage s = 4%nat -> loop s = LDead ->
    outside s (St (src s) (eof s) (relay s) (pipe s) (wclosed s) (loop s) (ch s) (cons s) 5 (got s) (ended s) (taken s) (typed s))
(* 338-358: the relay has ended, or 50 ms have passed *)
| WaitRelay s : stage s = 5%nat -> relay s = RDead ->
    outside s (St (src s) (eof s) (relay s) (pipe s) (wclosed s) (loop s) (ch s) (cons s) 6 (got s) (ended s) (taken s) (typed s))
| WaitTimeout s : stage s = 5%nat ->
    outside s (St (src s) (eof s) (relay s) (pipe s) (wclosed s) (loop s) (ch s) (cons s) 6 (got s) (ended s) (taken s) (typed s)).

Inductive run : st -> st -> Prop :=
| run_refl s : run s s
| run_step a b c : run a b -> step b c -> run a c
| run_outside a b c : run a b -> outside b c -> run a c.
Definition reached (s : st) : Prop := run init s.
End Reader.
