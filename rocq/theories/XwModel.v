(** Model of ExecProcessWithTTY on Windows: /repo/tea/internal/application/program/tty_control_windows.go:43-105,
    over the console of WcModel.  Simplifications: only the input mode is followed (the alternate screen
    and the cursor are as in LifeModel and WcModel); the child leaves the mode as it finds it. *)
From Verif Require Import Prelude WcModel.

(** The result: the console input mode the child process finds. *)
Definition exec_tty : M Z :=
  (* 50-52: Suspend (program.go:733-743) *)
  let! c := get in
  let! _ := if inRaw c then ExitRawMode else ret tt in
  fun s =>
    let s := match GetMode s with
             (* 63-67: not a console, plain ExecProcess; Suspend is then a no-op *)
             | (None, s) => s
             (* 70-74: ENABLE_VIRTUAL_TERMINAL_INPUT is 0x200; an error is only logged *)
             | (Some m, s) => snd (SetMode (Z.ldiff m 512) s)
             end in
    let seen := imode (device s) in
    (* 98-103: Resume (program.go:829-837) *)
    (let! _ := if inRaw c then EnterRawMode else ret tt in ret seen) s.
