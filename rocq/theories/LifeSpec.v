(** Specification vocabulary for C17, C18, C60. *)
From Verif Require Import Prelude LifeModel.

(** The terminal is in its normal (cooked, primary screen) state. *)
Definition normal (w : world) : Prop := raw w = false /\ alt w = false.
(** From now on the device accepts every operation. *)
Definition accepts (w : world) : Prop := Forall (fun b => b = true) (oracle w).
Definition modes (w : world) : bool * bool := (raw w, alt w).
Definition suspended (s : sys) : bool := match susp (pr s) with Some _ => true | None => false end.

(** Resume and the exec calls are made only while the program runs. *)
Definition resumes (c : call) : bool := match c with CResume | CExec | CExecTTY _ _ _ => true | _ => false end.
Fixpoint orderly (cs : list call) (s : sys) : Prop :=
  match cs with
  | [] => True
  | c :: r => (resumes c = true -> running (pr s) = true) /\ orderly r (do c s)
  end.
Definition touches_cursor (c : call) : bool :=
  match c with CSuspend | CResume | CExec | CExecTTY _ _ _ => true | _ => false end.
