(** Model of the mode calls of the Windows console (terminal/internal/infrastructure/windows/console.go:643-833) made from several
    goroutines: each takes the console's mutex for its whole body (the deferred Unlock) and touches the fields of the object and
    the device one access at a time. The console device and its Win32 calls are WcModel's; the oracle says which of them fail, in
    the order in which they are made. The other calls of the console take no lock and are not part of this model. *)
From Verif Require Import Prelude MxModel WcModel.

Section WcMx.
Variable close_ok : nat -> bool.

Inductive wcall := WEnterAlt | WExitAlt | WIsAlt | WEnterRaw | WExitRaw | WIsRaw.
(** where the body is, with its local variables *)
Inductive wpos := PCheck | PKeepOrig | PCreate | PKeepAlt (h : nat) | PActivate (h : nat) | PClose (h : nat) | PForgetAlt | PSwitch (h : nat)
  | PRestore | PCloseAlt | PSwitchBack | PDropAlt | PGetMode | PSaveMode (m : Z) | PSetMode (m : Z) | PReset | PFlag | PZero | PReturn (r : bool).

(* all of them call c.mu.Lock() first: 644, 701, 736, 750, 770, 821 *)
Definition w_lock (c : wcall) : bool := true.
Definition w_first (c : wcall) : wpos := PCheck.
(* an assignment to fields of the object *)
Definition upd (f : con -> con) (s : st) : st := St (f (obj s)) (saved s) (device s) (orc s).
Definition w_next (c : wcall) (p : wpos) (s : st) : (wpos * st) + bool :=
  let go q := inl (q, s) in
  (* a Win32 call: where to go when it succeeds and when it fails *)
  let sys_call {A} (m : M A) (ok : A -> wpos) (no : wpos) : (wpos * st) + bool := match m s with (Some x, s') => inl (ok x, s') | (None, s') => inl (no, s') end in
  match c, p with
  | _, PReturn r => inr r
  (* EnterAltScreen, console.go:643-683 *)
  | WEnterAlt, PCheck => if inAlt (obj s) then go (PReturn false) else go PKeepOrig
  | WEnterAlt, PKeepOrig => inl (PCreate, upd (fun c => Con (out c) (out c) (alt c) (inAlt c) (inRaw c) (omode c)) s)
  | WEnterAlt, PCreate => sys_call CreateBuffer PKeepAlt (PReturn false)
  | WEnterAlt, PKeepAlt h => inl (PActivate h, upd (fun c => Con (out c) (orig c) (Some h) (inAlt c) (inRaw c) (omode c)) s)
  | WEnterAlt, PActivate h => sys_call (SetActive h) (fun _ => PSwitch h) (PClose h)
  | WEnterAlt, PClose h => sys_call (CloseHandle close_ok h) (fun _ => PForgetAlt) PForgetAlt
  | WEnterAlt, PForgetAlt => inl (PReturn false, upd (fun c => Con (out c) (orig c) None (inAlt c) (inRaw c) (omode c)) s)
  | WEnterAlt, PSwitch h => inl (PFlag, upd (fun c => Con h (orig c) (alt c) (inAlt c) (inRaw c) (omode c)) s)
  | WEnterAlt, PFlag => inl (PReturn true, upd (fun c => Con (out c) (orig c) (alt c) true (inRaw c) (omode c)) s)
  (* ExitAltScreen, 700-726 *)
  | WExitAlt, PCheck => if inAlt (obj s) then go PRestore else go (PReturn false)
  | WExitAlt, PRestore => sys_call (SetActive (orig (obj s))) (fun _ => PCloseAlt) (PReturn false)
  | WExitAlt, PCloseAlt => match alt (obj s) with Some h => sys_call (CloseHandle close_ok h) (fun _ => PSwitchBack) PSwitchBack | None => go PSwitchBack end
  | WExitAlt, PSwitchBack => inl (PDropAlt, upd (fun c => Con (orig c) (orig c) (alt c) (inAlt c) (inRaw c) (omode c)) s)
  | WExitAlt, PDropAlt => inl (PFlag, upd (fun c => Con (out c) (orig c) None (inAlt c) (inRaw c) (omode c)) s)
  | WExitAlt, PFlag => inl (PReturn true, upd (fun c => Con (out c) (orig c) (alt c) false (inRaw c) (omode c)) s)
  (* 735-739, 749-753 *)
  | WIsAlt, PCheck => go (PReturn (inAlt (obj s)))
  | WIsRaw, PCheck => go (PReturn (inRaw (obj s)))
  (* EnterRawMode, 769-805 *)
  | WEnterRaw, PCheck => if inRaw (obj s) then go (PReturn false) else go PGetMode
  | WEnterRaw, PGetMode => sys_call GetMode PSaveMode (PReturn false)
  | WEnterRaw, PSaveMode m => inl (PSetMode m, upd (fun c => Con (out c) (orig c) (alt c) (inAlt c) (inRaw c) m) s)
  | WEnterRaw, PSetMode m => sys_call (SetMode (raw_mode m)) (fun _ => PFlag) (PReturn false)
  | WEnterRaw, PFlag => inl (PReturn true, upd (fun c => Con (out c) (orig c) (alt c) (inAlt c) true (omode c)) s)
  (* ExitRawMode, 820-836 *)
  | WExitRaw, PCheck => if inRaw (obj s) then go PReset else go (PReturn false)
  | WExitRaw, PReset => sys_call (SetMode (omode (obj s))) (fun _ => PFlag) (PReturn false)
  | WExitRaw, PFlag => inl (PZero, upd (fun c => Con (out c) (orig c) (alt c) (inAlt c) false (omode c)) s)
  | WExitRaw, PZero => inl (PReturn true, upd (fun c => Con (out c) (orig c) (alt c) (inAlt c) (inRaw c) 0) s)
  | _, _ => go (PReturn false)         (* not a position of this body *)
  end.
Definition w_out (o : unit) (x : unit) : unit := x.
Definition w_exec (sched : list nat) (s0 : st) (ps : list (list wcall)) : MxModel.sys st wpos wcall bool unit unit :=
  exec w_lock w_first w_next w_out sched (begin s0 tt (map (map Do) ps)).
End WcMx.
