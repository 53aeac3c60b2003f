(** Model of the test doubles of package testing: /repo/testing/mock_terminal.go and
    null_terminal.go.

    MockTerminal promises to be safe for concurrent use, so its methods are modelled in the small
    steps between which the scheduler may switch goroutines: taking the mutex, reading the Calls
    slice, storing the appended slice, testing and setting the mode flag, releasing the mutex
    and returning.  Simplifications: strings are lists of code points (ASCII but for quoted
    arguments); fmt's %q is an arbitrary function [quote]; appending is a new list (nothing
    else reaches the backing array); reading the exported field Calls without the mutex while
    other goroutines run is a data race and not modelled. *)
From Verif Require Import Prelude.
From Verif Require TmModel.
From Coq Require Import String Ascii.
Notation length := List.length.

Definition codes (s : string) : list Z := map (fun a => Z.of_N (N_of_ascii a)) (list_ascii_of_string s).

(** Every method of the Terminal interface (terminal.go:215-450) and the two helpers. *)
Inductive mcall :=
| Dev (c : TmModel.call)
| GetCursorPosition | ReadScreenBuffer | Size | ColorDepth
| SupportsDirectPositioning | SupportsReadback | SupportsTrueColor | Platform
| IsInAltScreen | IsInRawMode
| CallCount (m : list Z) | Reset.

(** What a call returns: an error or none, a truth value, a number, two numbers without error. *)
Inductive res := Ok | Err | Bool (b : bool) | Num (n : Z) | Pair (a b : Z).

(* fmt's %d *)
Definition num (z : Z) : list Z := if z <? 0 then 45 :: dec (- z) else dec z.
(* terminal.go:467-478 *)
Definition style_string (s : Z) : list Z :=
  if s =? 0 then codes "Block"%string else if s =? 1 then codes "Underline"%string else if s =? 2 then codes "Bar"%string else codes "Unknown"%string.

Section Quote.
Variable quote : list Z -> list Z.

Definition c1 (n : string) (a : list Z) : list Z := (codes n ++ [40] ++ a ++ [41])%list.
Definition c2 (n : string) (a b : list Z) : list Z := (codes n ++ [40] ++ a ++ [44; 32] ++ b ++ [41])%list.
Definition c3 (n : string) (a b c : list Z) : list Z := (codes n ++ [40] ++ a ++ [44; 32] ++ b ++ [44; 32] ++ c ++ [41])%list.

(** What a method passes to record (or appends itself): mock_terminal.go:93-349.  CallCount and
    Reset record nothing. *)
Definition text (c : mcall) : option (list Z) :=
  match c with
  | Dev (TmModel.SetCursorPosition x y) => Some (c2 "SetCursorPosition" (num x) (num y))
  | Dev (TmModel.MoveCursorUp n) => Some (c1 "MoveCursorUp" (num n))
  | Dev (TmModel.MoveCursorDown n) => Some (c1 "MoveCursorDown" (num n))
  | Dev (TmModel.MoveCursorLeft n) => Some (c1 "MoveCursorLeft" (num n))
  | Dev (TmModel.MoveCursorRight n) => Some (c1 "MoveCursorRight" (num n))
  | Dev TmModel.SaveCursorPosition => Some (codes "SaveCursorPosition"%string)
  | Dev TmModel.RestoreCursorPosition => Some (codes "RestoreCursorPosition"%string)
  | Dev TmModel.HideCursor => Some (codes "HideCursor"%string)
  | Dev TmModel.ShowCursor => Some (codes "ShowCursor"%string)
  | Dev (TmModel.SetCursorStyle s) => Some (c1 "SetCursorStyle" (style_string s))
  | Dev TmModel.Clear => Some (codes "Clear"%string)
  | Dev TmModel.ClearLine => Some (codes "ClearLine"%string)
  | Dev TmModel.ClearFromCursor => Some (codes "ClearFromCursor"%string)
  | Dev (TmModel.ClearLines n) => Some (c1 "ClearLines" (num n))
  | Dev (TmModel.Write s) => Some (c1 "Write" (quote s))
  | Dev (TmModel.WriteAt x y s) => Some (c3 "WriteAt" (num x) (num y) (quote s))
  | Dev TmModel.EnterAltScreen => Some (codes "EnterAltScreen"%string)
  | Dev TmModel.ExitAltScreen => Some (codes "ExitAltScreen"%string)
  | Dev TmModel.EnterRawMode => Some (codes "EnterRawMode"%string)
  | Dev TmModel.ExitRawMode => Some (codes "ExitRawMode"%string)
  | GetCursorPosition => Some (codes "GetCursorPosition"%string)
  | ReadScreenBuffer => Some (codes "ReadScreenBuffer"%string)
  | Size => Some (codes "Size"%string)
  | ColorDepth => Some (codes "ColorDepth"%string)
  | SupportsDirectPositioning => Some (codes "SupportsDirectPositioning"%string)
  | SupportsReadback => Some (codes "SupportsReadback"%string)
  | SupportsTrueColor => Some (codes "SupportsTrueColor"%string)
  | Platform => Some (codes "Platform"%string)
  | IsInAltScreen => Some (codes "IsInAltScreen"%string)
  | IsInRawMode => Some (codes "IsInRawMode"%string)
  | CallCount _ | Reset => None
  end.

(* mock_terminal.go:72: call == method || len(call) > len(method) && call[:len(method)] == method && call[len(method)] == '(' *)
Fixpoint matches (m t : list Z) : bool :=
  match m, t with
  | [], [] => true
  | [], y :: _ => y =? 40
  | x :: m, y :: t => (x =? y) && matches m t
  | _ :: _, [] => false
  end.
(* mock_terminal.go:66-77 *)
Definition count (m : list Z) (calls : list (list Z)) : Z := Z.of_nat (length (filter (matches m) calls)).

(** The fields (mock_terminal.go:39-44); the mutex knows which goroutine holds it. *)
Record mock := Mock { inAlt : bool; inRaw : bool; mu : option nat; calls : list (list Z) }.
(* mock_terminal.go:47-51, and the zero value *)
Definition new_mock : mock := Mock false false None [].

(** What a method does with the flags and returns, once its call has been recorded
    (mock_terminal.go:93-349). *)
Definition finish (c : mcall) (m : mock) : mock * res :=
  let simple r := (m, r) in
  match c with
  | Dev TmModel.EnterAltScreen => if inAlt m then simple Err else (Mock true (inRaw m) (mu m) (calls m), Ok)
  | Dev TmModel.ExitAltScreen => if negb (inAlt m) then simple Err else (Mock false (inRaw m) (mu m) (calls m), Ok)
  | Dev TmModel.EnterRawMode => if inRaw m then simple Err else (Mock (inAlt m) true (mu m) (calls m), Ok)
  | Dev TmModel.ExitRawMode => if negb (inRaw m) then simple Err else (Mock (inAlt m) false (mu m) (calls m), Ok)
  | Dev _ => simple Ok
  | GetCursorPosition => simple (Pair 0 0)
  | ReadScreenBuffer => simple Ok
  | Size => simple (Pair 80 24)
  | ColorDepth => simple (Num 256)
  | SupportsDirectPositioning => simple (Bool false)
  | SupportsReadback => simple (Bool false)
  | SupportsTrueColor => simple (Bool true)
  | Platform => simple (Num 0)
  | IsInAltScreen => simple (Bool (inAlt m))
  | IsInRawMode => simple (Bool (inRaw m))
  | CallCount _ | Reset => simple Ok
  end.

(** A goroutine: the calls it still has to make, and where it is in the current one. *)
Inductive pc := Idle | Locked (c : mcall) | Read (c : mcall) (t : list Z) (l : list (list Z)) | Stored (c : mcall) | Done (c : mcall) (r : res).
Record thread := Thread { at_ : pc; todo : list mcall }.
Definition config := (mock * list thread)%type.

(** One step of goroutine i: None when it is finished or waits for the mutex; the event is the
    call that returned, if any. *)
Definition step (i : nat) (cf : config) : option (config * option (nat * mcall * res)) :=
  let (m, ts) := cf in
  match nth_error ts i with
  | None => None
  | Some th =>
      let go m p q ev := Some ((m, set_nth ts i (Thread p q)), ev) in
      match at_ th with
      | Idle => match todo th with
                | [] => None
                | c :: q => match mu m with                                   (* m.mu.Lock() *)
                            | None => go (Mock (inAlt m) (inRaw m) (Some i) (calls m)) (Locked c) q None
                            | Some _ => None
                            end
                end
      | Locked c => match c with
                    | Reset => go (Mock (inAlt m) (inRaw m) (mu m) []) (Done c Ok) (todo th) None
                    | CallCount w => go m (Done c (Num (count w (calls m)))) (todo th) None
                    | _ => match text c with
                           | Some t => go m (Read c t (calls m)) (todo th) None
                           | None => go m (Stored c) (todo th) None
                           end
                    end
      | Read c t l => go (Mock (inAlt m) (inRaw m) (mu m) (l ++ [t])%list) (Stored c) (todo th) None
      | Stored c => let (m', r) := finish c m in go m' (Done c r) (todo th) None
      | Done c r => go (Mock (inAlt m) (inRaw m) None (calls m)) Idle (todo th) (Some (i, c, r))   (* deferred Unlock *)
      end
  end.

(** A schedule picks goroutines; picking one that cannot move changes nothing.  The second
    component lists the calls in the order in which they return. *)
Fixpoint exec (sched : list nat) (cf : config) : config * list (nat * mcall * res) :=
  match sched with
  | [] => (cf, [])
  | i :: s => match step i cf with
              | None => exec s cf
              | Some (cf', ev) => let (cf'', evs) := exec s cf' in
                                  (cf'', match ev with Some e => e :: evs | None => evs end)
              end
  end.
Definition start (programs : list (list mcall)) : config := (new_mock, map (Thread Idle) programs).

End Quote.

(* null_terminal.go:42-221 *)
Definition null_call (c : mcall) : res :=
  match c with
  | Dev _ | ReadScreenBuffer => Ok
  | GetCursorPosition => Pair 0 0
  | Size => Pair 80 24
  | ColorDepth => Num 256
  | SupportsDirectPositioning | SupportsReadback | IsInAltScreen | IsInRawMode => Bool false
  | SupportsTrueColor => Bool true
  | Platform => Num 0
  | CallCount _ | Reset => Ok
  end.
