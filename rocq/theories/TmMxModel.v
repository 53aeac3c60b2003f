(** Model of the mode calls of the Unix terminal (terminal/internal/infrastructure/unix/ansi.go:355-520) made from several
    goroutines: each takes the terminal's mutex for its whole body (the deferred Unlock) and touches the flags and the device
    one access at a time. The other calls of the terminal take no lock and are not part of this model. A call carries
    whether the system would accept its write or ioctl. *)
From Verif Require Import Prelude TermEmu RenderModel TmModel MxModel.

Section TmMx.
Variable cw : Z -> Z.
Variable T : Type.
Variable mkraw : T -> T.

Inductive mcall := MEnterAlt (ok : bool) | MExitAlt (ok : bool) | MIsAlt | MEnterRaw (ok : bool) | MExitRaw (ok : bool) | MIsRaw.
(** where the body is: the flag is read, the device is told, the old settings are kept, the flag is set, the settings are
    forgotten, the result is known *)
Inductive mpos := PCheck | PDevice | PSave (o : T) | PFlag | PForget | PReturn (r : bool).

(* all of them call a.mu.Lock() first *)
Definition m_lock (c : mcall) : bool := true.
Definition m_first (c : mcall) : mpos := PCheck.
Definition set_alt (a : ansi T) (b : bool) : ansi T := Ansi T b (inRaw T a) (orig T a).
Definition set_raw (a : ansi T) (b : bool) : ansi T := Ansi T (inAlt T a) b (orig T a).
Definition set_orig (a : ansi T) (o : option T) : ansi T := Ansi T (inAlt T a) (inRaw T a) o.
Definition set_tty (d : dev T) (x : T) : dev T := Dev T (scr T d) (back T d) x.
Definition m_next (c : mcall) (p : mpos) (s : ansi T * dev T) : (mpos * (ansi T * dev T)) + bool :=
  let (a, d) := s in
  let go q := inl (q, (a, d)) in
  match c, p with
  | _, PReturn r => inr r
  (* ansi.go:370-388 *)
  | MEnterAlt _, PCheck => if inAlt T a then go (PReturn false) else go PDevice
  | MEnterAlt ok, PDevice => if ok then inl (PFlag, (a, dfeeds cw T d alt_on_code)) else go (PReturn false)
  | MEnterAlt _, PFlag => inl (PReturn true, (set_alt a true, d))
  (* 406-424 *)
  | MExitAlt _, PCheck => if inAlt T a then go PDevice else go (PReturn false)
  | MExitAlt ok, PDevice => if ok then inl (PFlag, (a, dfeeds cw T d alt_off_code)) else go (PReturn false)
  | MExitAlt _, PFlag => inl (PReturn true, (set_alt a false, d))
  (* 433-437, 447-451 *)
  | MIsAlt, PCheck => go (PReturn (inAlt T a))
  | MIsRaw, PCheck => go (PReturn (inRaw T a))
  (* 467-489 *)
  | MEnterRaw _, PCheck => if inRaw T a then go (PReturn false) else go PDevice
  | MEnterRaw ok, PDevice => if ok then inl (PSave (tty T d), (a, set_tty d (mkraw (tty T d)))) else go (PReturn false)
  | MEnterRaw _, PSave o => inl (PFlag, (set_orig a (Some o), d))
  | MEnterRaw _, PFlag => inl (PReturn true, (set_raw a true, d))
  (* 502-520 *)
  | MExitRaw _, PCheck => if inRaw T a then go PDevice else go (PReturn false)
  | MExitRaw ok, PDevice =>
      match orig T a with
      | Some o => if ok then inl (PFlag, (a, set_tty d o)) else go (PReturn false)
      | None => go (PReturn false)     (* nil state: would panic; shown unreachable *)
      end
  | MExitRaw _, PFlag => inl (PForget, (set_raw a false, d))
  | MExitRaw _, PForget => inl (PReturn true, (set_orig a None, d))
  | _, _ => go (PReturn false)         (* not a position of this body *)
  end.
Definition m_out (o : unit) (x : unit) : unit := x.
Definition m_exec (sched : list nat) (t : term) (tio : T) (ps : list (list mcall)) : sys (ansi T * dev T) mpos mcall bool unit unit :=
  exec m_lock m_first m_next m_out sched (begin (newANSI T, Dev T t None tio) tt (map (map Do) ps)).
End TmMx.
Arguments PCheck {T}. Arguments PDevice {T}. Arguments PSave {T}. Arguments PFlag {T}. Arguments PForget {T}. Arguments PReturn {T}.
