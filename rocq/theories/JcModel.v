(** Model of job control around external commands: tea/internal/application/program/tty_control_linux.go 63-151 (ExecProcessWithTTY; the
    darwin file has the same text) and program.go 909-939 (ExecProcess), with what the kernel's terminal driver and an interactive
    shell do: the processes are the program, the one command it runs, and the shell that started the program as a job. The terminal's
    foreground group, stopped and ended processes and the keys Ctrl-Z and Ctrl-C are modelled; the terminal modes are LifeModel's, here
    only whether the TUI has the terminal. Simplifications: tcgetpgrp (line 73) has succeeded and answered the program's own group; the
    program is never sent to the background with the shell's bg; the command stays in the group it was started in and does not start others;
    the program takes the default action for SIGINT, SIGTSTP and SIGTTIN (nothing in /repo calls signal.Notify or ignores them). *)
From Verif Require Import Prelude.

(* who a process group belongs to: the program, a group with the command's number, the shell *)
Inductive grp := GApp | GCmd | GShell.
Inductive run := Running | Stopped | Gone.
(* program.go:909 and tty_control_linux.go:18-28, 63: which function is called, with which options *)
Inductive call := Exec | ExecTTY (transferForeground createProcessGroup : bool).
Definition transfer (c : call) : bool := match c with Exec => false | ExecTTY t _ => t end.
(* tty_control_linux.go:92-98: the group the command runs in *)
Definition cmd_group (c : call) : grp := match c with ExecTTY _ true => GCmd | _ => GApp end.

(* where the call is: line numbers of tty_control_linux.go; for ExecProcess AtIgnore is passed without effect *)
Inductive place := AtIgnore (* 82 *) | AtSuspend (* 86 *) | AtStart (* 106 *) | AtTransfer (* 118 *) | AtWait (* 130 *) | AtReclaim (* 134 *)
  | AtResume (failed : bool) (* 108, 122, 143 *) | Returned (failed : bool).
Record st := St { pc : place; app : run; cmd : option run (* None: not started *); reaped : bool (* the program has waited for it *);
                  fg : grp (* the terminal's foreground group *); ignTTOU : bool (* SIGTTOU is ignored *); tui : bool (* the TUI has the terminal *);
                  inputs : nat (* what the command has read from the terminal *) }.
Definition start : st := St AtIgnore Running None false GApp false true 0.

Definition stop (r : run) : run := match r with Running => Stopped | _ => r end.
Definition cont (r : run) : run := match r with Stopped => Running | _ => r end.
Definition grp_eqb (a b : grp) : bool := match a, b with GApp, GApp | GCmd, GCmd | GShell, GShell => true | _, _ => false end.
(* a stop signal to group g: its members stop; [handled] says that the command does not take the default action *)
Definition stop_group (c : call) (g : grp) (handled : bool) (s : st) : st :=
  St (pc s) (if grp_eqb g GApp then stop (app s) else app s) (if grp_eqb g (cmd_group c) && negb handled then option_map stop (cmd s) else cmd s)
     (reaped s) (fg s) (ignTTOU s) (tui s) (inputs s).
Definition at_ (p : place) (s : st) : st := St p (app s) (cmd s) (reaped s) (fg s) (ignTTOU s) (tui s) (inputs s).
Definition with_fg (g : grp) (s : st) : st := St (pc s) (app s) (cmd s) (reaped s) g (ignTTOU s) (tui s) (inputs s).
Definition with_cmd (r : option run) (s : st) : st := St (pc s) (app s) r (reaped s) (fg s) (ignTTOU s) (tui s) (inputs s).
Definition with_app (r : run) (s : st) : st := St (pc s) r (cmd s) (reaped s) (fg s) (ignTTOU s) (tui s) (inputs s).
Definition with_tui (b : bool) (s : st) : st := St (pc s) (app s) (cmd s) (reaped s) (fg s) (ignTTOU s) b (inputs s).
Definition with_ign (b : bool) (s : st) : st := St (pc s) (app s) (cmd s) (reaped s) (fg s) b (tui s) (inputs s).
(* return runs the deferred signal.Reset (83) *)
Definition return_ (failed : bool) (s : st) : st := with_ign false (at_ (Returned failed) s).

Inductive app_step (c : call) (s : st) : st -> Prop :=
| AIgnore : pc s = AtIgnore -> app_step c s (at_ AtSuspend (with_ign (match c with Exec => false | _ => true end) s))      (* 82 *)
| ASuspend : pc s = AtSuspend -> app_step c s (at_ AtStart (with_tui false s))                                         (* 86 *)
| ASuspendFails : pc s = AtSuspend -> app_step c s (return_ true s)                                                    (* 87 *)
| AStart : pc s = AtStart -> app_step c s (at_ (if transfer c then AtTransfer else AtWait) (with_cmd (Some Running) s))  (* 106, 117 *)
| AStartFails : pc s = AtStart -> app_step c s (at_ (AtResume true) s)                                                 (* 106-112 *)
(* 118: tcsetpgrp to the command's number. If there is such a group the kernel accepts; if not it refuses, as POSIX says,
   or accepts a group without members, as Linux does for the number of a process of the same session *)
| ATransfer : pc s = AtTransfer -> app_step c s (at_ AtWait (with_fg GCmd s))
| ATransferRefused : pc s = AtTransfer -> cmd_group c <> GCmd -> app_step c s (at_ (AtResume true) (with_cmd (Some Gone) s))   (* 120: Kill, no Wait *)
| AWait : pc s = AtWait -> cmd s = Some Gone -> app_step c s
    (St (if transfer c then AtReclaim else AtResume false) (app s) (cmd s) true (fg s) (ignTTOU s) (tui s) (inputs s))         (* 130-133 *)
| AReclaim : pc s = AtReclaim -> ignTTOU s = true \/ fg s = GApp -> app_step c s (at_ (AtResume false) (with_fg GApp s))       (* 134 *)
| AReclaimStops : pc s = AtReclaim -> ignTTOU s = false -> fg s <> GApp -> app_step c s (stop_group c GApp false s)            (* SIGTTOU *)
| AResume b : pc s = AtResume b -> app_step c s (return_ b (with_tui true s))                                              (* 143, 150 *)
| AResumeFails b : pc s = AtResume b -> app_step c s (return_ true s).                                                    (* 144 *)

(* the command: it reads from the terminal or ends; it does anything else without effect here *)
Inductive cmd_step (c : call) (s : st) : st -> Prop :=
| CRead : fg s = cmd_group c -> cmd_step c s (St (pc s) (app s) (cmd s) (reaped s) (fg s) (ignTTOU s) (tui s) (S (inputs s)))
| CReadStops : fg s <> cmd_group c -> cmd_step c s (stop_group c (cmd_group c) false s)                                   (* SIGTTIN *)
| CExit : cmd_step c s (with_cmd (Some Gone) s).

(* the keys reach the processes as signals only while the TUI does not have the terminal (in raw mode they are bytes) *)
Inductive key_step (c : call) (s : st) : st -> Prop :=
| CtrlZ handled : key_step c s (stop_group c (fg s) handled s)
| CtrlC handled : key_step c s
    (with_app (match app s, fg s with Running, GApp => Gone | r, _ => r end)
      (with_cmd (if grp_eqb (fg s) (cmd_group c) && negb handled then match cmd s with Some Running => Some Gone | o => o end else cmd s) s)).

(* the shell: it takes the terminal when its job has stopped or ended; fg continues the job *)
Inductive shell_step (c : call) (s : st) : st -> Prop :=
| ShTake : app s <> Running -> shell_step c s (with_fg GShell s)
| ShFg : app s = Stopped -> fg s = GShell -> shell_step c s
    (with_fg GApp (with_app Running (if grp_eqb (cmd_group c) GApp then with_cmd (option_map cont (cmd s)) s else s))).

Inductive step (c : call) (s : st) : st -> Prop :=
| SApp s' : app s = Running -> app_step c s s' -> step c s s'
| SCmd s' : cmd s = Some Running -> cmd_step c s s' -> step c s s'
| SKey s' : tui s = false -> key_step c s s' -> step c s s'
| SShell s' : shell_step c s s' -> step c s s'.
Inductive steps (c : call) : st -> st -> Prop := Here s : steps c s s | Then s s' s'' : steps c s s' -> step c s' s'' -> steps c s s''.
Definition reach (c : call) (s : st) : Prop := steps c start s.
