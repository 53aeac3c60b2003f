(** Model of the program life cycle: tea/internal/application/program/program.go
    (Run 144-202, Start 271-329, Suspend 709-772, Resume 797-857, ExecProcess 909-939),
    tty_control_linux.go 63-151, and the terminal modes of
    terminal/internal/infrastructure/unix/ansi.go (alternate screen 370-437, raw mode 447-520,
    cursor 159-178).

    Calls are atomic here (each holds p.mu around its terminal operations); the event loop
    itself is TeaModel. *)
From Verif Require Import Prelude.

(** The terminal, with an oracle: every operation that reaches the device takes one answer
    (true: the device accepts it); an exhausted oracle always accepts. *)
Record world := W { raw : bool; alt : bool; cur : bool (* cursor shown *); fg_child : bool
                    (* the child's process group owns the terminal *); oracle : list bool }.

Definition ask (w : world) : bool * world :=
  match oracle w with
  | [] => (true, w)
  | b :: o => (b, W (raw w) (alt w) (cur w) (fg_child w) o)
  end.

(* ansi.go:467-489 *)
Definition enter_raw (w : world) : bool * world :=
  if raw w then (false, w)
  else let (b, w) := ask w in if b then (true, W true (alt w) (cur w) (fg_child w) (oracle w)) else (false, w).
(* ansi.go:502-520 *)
Definition exit_raw (w : world) : bool * world :=
  if negb (raw w) then (false, w)
  else let (b, w) := ask w in if b then (true, W false (alt w) (cur w) (fg_child w) (oracle w)) else (false, w).
(* ansi.go:370-388 *)
Definition enter_alt (w : world) : bool * world :=
  if alt w then (false, w)
  else let (b, w) := ask w in if b then (true, W (raw w) true (cur w) (fg_child w) (oracle w)) else (false, w).
(* ansi.go:406-424 *)
Definition exit_alt (w : world) : bool * world :=
  if negb (alt w) then (false, w)
  else let (b, w) := ask w in if b then (true, W (raw w) false (cur w) (fg_child w) (oracle w)) else (false, w).
(* ansi.go:159-178: HideCursor, ShowCursor *)
Definition set_cursor (v : bool) (w : world) : bool * world :=
  let (b, w) := ask w in if b then (true, W (raw w) (alt w) v (fg_child w) (oracle w)) else (false, w).
(* tty_control_linux.go:46-52 tcsetpgrp *)
Definition set_fg (v : bool) (w : world) : bool * world :=
  let (b, w) := ask w in if b then (true, W (raw w) (alt w) (cur w) v (oracle w)) else (false, w).

(** The program; susp is Some (wasInRawMode, wasInAltScreen) while suspended. *)
Record prog := P { altcfg : bool; running : bool; susp : option (bool * bool); reader : bool }.

Record sys := Sy { pr : prog; wo : world }.

(* program.go:159-174 (and 286-301): the deferred cleanup *)
Definition cleanup (s : sys) : sys :=
  let p := pr s in let w := wo s in
  let w := if raw w then snd (exit_raw w) else w in
  let w := if altcfg p && alt w then snd (exit_alt w) else w in
  Sy (P (altcfg p) false (susp p) (reader p)) w.

(* program.go:144-199: result true when the event loop is entered; when the alternate screen
   cannot be entered Run returns an error through the deferred cleanup. *)
Definition run_begin (s : sys) : bool * sys :=
  let p := pr s in
  if running p then (false, s)
  else
    let p := P (altcfg p) true (susp p) (reader p) in
    let (rawok, w) := enter_raw (wo s) in
    if altcfg p then
      let (altok, w) := enter_alt w in
      if altok then (true, Sy (P (altcfg p) true (susp p) true) w)
      else
        let w := if rawok then snd (exit_raw w) else w in
        (false, cleanup (Sy p w))
    else (true, Sy (P (altcfg p) true (susp p) true) w).

(* program.go:271-329: Start; a raw-mode failure also skips the alternate screen *)
Definition start_begin (s : sys) : bool * sys :=
  let p := pr s in
  if running p then (false, s)
  else
    let p := P (altcfg p) true (susp p) (reader p) in
    let (rawok, w) := enter_raw (wo s) in
    if rawok then
      if altcfg p then
        let (altok, w) := enter_alt w in
        if altok then (true, Sy (P (altcfg p) true (susp p) true) w)
        else (true, cleanup (Sy p (snd (exit_raw w))))
      else (true, Sy (P (altcfg p) true (susp p) true) w)
    else (true, Sy (P (altcfg p) true (susp p) true) w).

(* program.go:210, 249: the loop ends, whatever the reason *)
Definition loop_end (s : sys) : sys := if running (pr s) then cleanup s else s.

(* program.go:709-772 *)
Definition suspend (s : sys) : bool * sys :=
  let p := pr s in
  match susp p with
  | Some _ => (true, s)
  | None =>
      let p := P (altcfg p) (running p) None false in            (* 724 stopInputReader *)
      let wasraw := raw (wo s) in let wasalt := alt (wo s) in
      let (ok, w) := if wasraw then exit_raw (wo s) else (true, wo s) in
      if negb ok then (false, Sy (P (altcfg p) (running p) None true) w)   (* 740 restart reader *)
      else
        let (ok, w) := if wasalt then exit_alt w else (true, w) in
        if negb ok then
          let w := if wasraw then snd (enter_raw w) else w in
          (false, Sy (P (altcfg p) (running p) None true) w)
        else
          let w := snd (set_cursor true w) in
          (true, Sy (P (altcfg p) (running p) (Some (wasraw, wasalt)) false) w)
  end.

(* program.go:797-857 *)
Definition resume (s : sys) : bool * sys :=
  let p := pr s in
  match susp p with
  | None => (true, s)
  | Some (wasraw, wasalt) =>
      let w := snd (set_cursor false (wo s)) in
      let (ok, w) := if wasalt then enter_alt w else (true, w) in
      if negb ok then (false, Sy p w)
      else
        let (ok, w) := if wasraw then enter_raw w else (true, w) in
        if negb ok then (false, Sy p w)
        else (true, Sy (P (altcfg p) (running p) None true) w)
  end.

(** What the child process saw: the modes of the terminal while it ran (None: not run). *)
Definition seen := option (bool * bool).

(* program.go:909-939; the child process itself is assumed to leave the modes as it found them *)
Definition exec_process (s : sys) : bool * seen * sys :=
  let (ok, s) := suspend s in
  if negb ok then (false, None, s)
  else
    let sn := Some (raw (wo s), alt (wo s)) in
    let (ok, s) := resume s in (ok, sn, s).

(* tty_control_linux.go:63-151: isTTY — tcgetpgrp succeeded; starts — cmd.Start succeeds;
   transfer — opts.TransferForeground *)
Definition exec_with_tty (isTTY starts transfer : bool) (s : sys) : bool * seen * sys :=
  if negb isTTY then exec_process s
  else
    let (ok, s) := suspend s in
    if negb ok then (false, None, s)
    else if negb starts then let (_, s) := resume s in (false, None, s)
    else
      let (ok, w) := if transfer then set_fg true (wo s) else (true, wo s) in
      let s := Sy (pr s) w in
      if negb ok then let (_, s) := resume s in (false, None, s)
      else
        let sn := Some (raw (wo s), alt (wo s)) in
        let s := Sy (pr s) (if transfer then snd (set_fg false (wo s)) else wo s) in
        let (ok, s) := resume s in (ok, sn, s).

(** Calls a host program can make, and the loop ending by itself. *)
Inductive call := CRun | CStart | CEnd | CSuspend | CResume | CExec | CExecTTY (isTTY starts transfer : bool).

Definition do (c : call) (s : sys) : sys :=
  match c with
  | CRun => snd (run_begin s)
  | CStart => snd (start_begin s)
  | CEnd => loop_end s
  | CSuspend => snd (suspend s)
  | CResume => snd (resume s)
  | CExec => snd (exec_process s)
  | CExecTTY a b c => snd (exec_with_tty a b c s)
  end.

Definition hist (cs : list call) (s : sys) : sys := fold_left (fun s c => do c s) cs s.

(** A program just created on a terminal in its normal state; o is the device's behaviour. *)
Definition fresh (altscreen : bool) (o : list bool) : sys :=
  Sy (P altscreen false None false) (W false false true false o).
