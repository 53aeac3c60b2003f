(** Model of the ANSI terminal: /repo/terminal/internal/infrastructure/unix/ansi.go, the
    implementation behind terminal.New() on Unix and terminal.NewANSI()
    (new.go:48-86: the adapter forwards every call unchanged).

    Simplifications: a write to the output either reaches the terminal completely or fails
    leaving no trace (the oracle says which); strings are lists of code points; term.MakeRaw /
    term.Restore (golang.org/x/term) either succeed or fail leaving the settings alone; the
    mutex makes the four mode calls atomic, so a concurrent execution is one of the call
    sequences considered here.  The Win32 console is in WcModel, the mutex in TmMxModel. *)
From Verif Require Import Prelude TermEmu.

(** The calls of the Terminal interface that act on the device. *)
Inductive call :=
| SetCursorPosition (x y : Z)
| MoveCursorUp (n : Z) | MoveCursorDown (n : Z) | MoveCursorLeft (n : Z) | MoveCursorRight (n : Z)
| SaveCursorPosition | RestoreCursorPosition
| HideCursor | ShowCursor | SetCursorStyle (s : Z)
| Clear | ClearLine | ClearFromCursor | ClearLines (n : Z)
| Write (s : list Z) | WriteAt (x y : Z) (s : list Z)
| EnterAltScreen | ExitAltScreen | EnterRawMode | ExitRawMode.

Definition csi1 (n f : Z) : list Z := 27 :: 91 :: dec n ++ [f].

(* ansi.go:68-72 *)
Definition set_pos_code (x y : Z) : list Z := 27 :: 91 :: dec (y + 1) ++ 59 :: dec (x + 1) ++ [72].
(* ansi.go:94-130: Move*, nothing for n <= 0 *)
Definition move_code (n f : Z) : list (list Z) := if n <=? 0 then [] else [csi1 n f].
(* ansi.go:177-192: None is the "unknown cursor style" error *)
Definition style_code (s : Z) : option (list Z) :=
  if s =? 0 then Some [27; 91; 50; 32; 113]
  else if s =? 1 then Some [27; 91; 52; 32; 113]
  else if s =? 2 then Some [27; 91; 54; 32; 113]
  else None.
(* ansi.go:200-203, 207-212, 216-219 *)
Definition clear_code : list Z := [27; 91; 50; 74; 27; 91; 72].
Definition clear_line_code : list Z := [13; 27; 91; 50; 75].
Definition clear_from_code : list Z := [27; 91; 74].
(* ansi.go:234-248 *)
Definition clear_lines_code (count : Z) : list (list Z) :=
  if count <=? 0 then []
  else if count =? 1 then [[13; 27; 91; 74]]
  else [27 :: 91 :: dec (count - 1) ++ [65; 13; 27; 91; 74]].
(* ansi.go:379 and 415 *)
Definition alt_on_code : list Z := [27; 91; 63; 49; 48; 52; 57; 104].
Definition alt_off_code : list Z := [27; 91; 63; 49; 48; 52; 57; 108].

(** The writes a call performs, in order; None when it fails before writing anything.
    The mode calls are below. *)
Definition writes (c : call) : option (list (list Z)) :=
  match c with
  | SetCursorPosition x y => Some [set_pos_code x y]
  | MoveCursorUp n => Some (move_code n 65)
  | MoveCursorDown n => Some (move_code n 66)
  | MoveCursorLeft n => Some (move_code n 68)
  | MoveCursorRight n => Some (move_code n 67)
  | SaveCursorPosition => Some [[27; 91; 115]]          (* ansi.go:134-137 *)
  | RestoreCursorPosition => Some [[27; 91; 117]]       (* ansi.go:141-144 *)
  | HideCursor => Some [[27; 91; 63; 50; 53; 108]]      (* ansi.go:152-155 *)
  | ShowCursor => Some [[27; 91; 63; 50; 53; 104]]      (* ansi.go:159-162 *)
  | SetCursorStyle s => option_map (fun b => [b]) (style_code s)
  | Clear => Some [clear_code]
  | ClearLine => Some [clear_line_code]
  | ClearFromCursor => Some [clear_from_code]
  | ClearLines n => Some (clear_lines_code n)
  | Write s => Some [s]                                 (* ansi.go:255-258 *)
  | WriteAt x y s => Some [set_pos_code x y; s]         (* ansi.go:262-267 *)
  | EnterAltScreen | ExitAltScreen | EnterRawMode | ExitRawMode => None
  end.

Section Device.
Variable cw : Z -> Z.              (* columns the terminal uses for a code point *)
Variable T : Type.                 (* tty settings (struct termios) *)
Variable mkraw : T -> T.           (* what MakeRaw sets *)

(** The device (specification, not code): the visible screen, the normal screen kept aside
    while the alternate one is shown, and the tty settings. *)
Record dev := Dev { scr : term; back : option term; tty : T }.

(** xterm's private mode 1049 at byte level: entering keeps the normal screen and clears the
    alternate one; leaving brings back the normal screen's content and cursor. *)
Definition dfeed (d : dev) (c : Z) : dev :=
  let t := scr d in
  let t' := feed cw t c in
  if Bool.eqb (alt t) (alt t') then Dev t' (back d) (tty d)
  else if alt t' then Dev (erase_where t' (fun _ _ => true)) (Some t) (tty d)
  else match back d with
       | Some b => Dev (set_cur (set_grid t' (grid b)) (cx b) (cy b) (pend b)) None (tty d)
       | None => Dev t' None (tty d)
       end.
Definition dfeeds (d : dev) (bs : list Z) : dev := fold_left dfeed bs d.

(** The Go struct (ansi.go:31-44). *)
Record ansi := Ansi { inAlt : bool; inRaw : bool; orig : option T }.
(* ansi.go:48-53 *)
Definition newANSI : ansi := Ansi false false None.

(** One answer of the system; an exhausted oracle always accepts. *)
Definition ask (o : list bool) : bool * list bool :=
  match o with [] => (true, []) | b :: o => (b, o) end.

(** Successive writes, stopping at the first that fails. *)
Fixpoint do_writes (ws : list (list Z)) (o : list bool) (d : dev) : bool * list bool * dev :=
  match ws with
  | [] => (true, o, d)
  | w :: ws => let (ok, o) := ask o in
               if ok then do_writes ws o (dfeeds d w) else (false, o, d)
  end.

(** One call: (no error?, rest of the oracle, object, device). *)
Definition do_call (c : call) (o : list bool) (a : ansi) (d : dev) : bool * list bool * ansi * dev :=
  match c with
  | EnterAltScreen =>                                   (* ansi.go:370-388 *)
      if inAlt a then (false, o, a, d)
      else let '(ok, o, d) := do_writes [alt_on_code] o d in
           if ok then (true, o, Ansi true (inRaw a) (orig a), d) else (false, o, a, d)
  | ExitAltScreen =>                                    (* ansi.go:406-424 *)
      if negb (inAlt a) then (false, o, a, d)
      else let '(ok, o, d) := do_writes [alt_off_code] o d in
           if ok then (true, o, Ansi false (inRaw a) (orig a), d) else (false, o, a, d)
  | EnterRawMode =>                                     (* ansi.go:467-489 *)
      if inRaw a then (false, o, a, d)
      else let (ok, o) := ask o in
           if ok then (true, o, Ansi (inAlt a) true (Some (tty d)), Dev (scr d) (back d) (mkraw (tty d)))
           else (false, o, a, d)
  | ExitRawMode =>                                      (* ansi.go:502-520 *)
      if negb (inRaw a) then (false, o, a, d)
      else match orig a with
           | Some st => let (ok, o) := ask o in
               if ok then (true, o, Ansi (inAlt a) false None, Dev (scr d) (back d) st)
               else (false, o, a, d)
           | None => (false, o, a, d)   (* nil state: would panic; shown unreachable *)
           end
  | _ => match writes c with
         | None => (false, o, a, d)
         | Some ws => let '(ok, o, d) := do_writes ws o d in (ok, o, a, d)
         end
  end.

(** A sequence of calls; the caller goes on after an error.  The first component lists, call by
    call, whether it returned no error. *)
Fixpoint do_calls (cs : list call) (o : list bool) (a : ansi) (d : dev)
  : list bool * list bool * ansi * dev :=
  match cs with
  | [] => ([], o, a, d)
  | c :: cs => let '(ok, o, a, d) := do_call c o a d in
               let '(oks, o, a, d) := do_calls cs o a d in (ok :: oks, o, a, d)
  end.

End Device.

(* ansi.go:425-437 IsInAltScreen, 447-456 IsInRawMode *)
Definition IsInAltScreen {T} (a : ansi T) : bool := inAlt T a.
Definition IsInRawMode {T} (a : ansi T) : bool := inRaw T a.

(** Environment strings, as code points. *)
Definition eqs (a b : list Z) : bool := if list_eq_dec Z.eq_dec a b then true else false.
Definition s_truecolor : list Z := [116; 114; 117; 101; 99; 111; 108; 111; 114].
Definition s_24bit : list Z := [50; 52; 98; 105; 116].
Definition s_256color : list Z := [50; 53; 54; 99; 111; 108; 111; 114].
Definition s_xterm_ : list Z := [120; 116; 101; 114; 109; 45].
Definition s_screen_ : list Z := [115; 99; 114; 101; 101; 110; 45].
Definition s_tmux_ : list Z := [116; 109; 117; 120; 45].

(* ansi.go:307-321 ColorDepth, given the values of COLORTERM and TERM *)
Definition ColorDepth (colorterm termenv : list Z) : Z :=
  if eqs colorterm s_truecolor || eqs colorterm s_24bit then 16777216
  else if eqs termenv (s_xterm_ ++ s_256color) || eqs termenv (s_screen_ ++ s_256color)
          || eqs termenv (s_tmux_ ++ s_256color) then 256
  else 16.
(* ansi.go:339-342 *)
Definition SupportsTrueColor (colorterm termenv : list Z) : bool :=
  ColorDepth colorterm termenv =? 16777216.
