(** Model of package core: core.go, internal/domain/model/terminal.go, rawmode.go,
    internal/domain/value/{capabilities,size,position,cell}.go,
    internal/domain/service/capabilities_detector.go, internal/infrastructure/platform, and of
    the constructors phoenix.go re-exports.

    Strings are lists of code points. Terminals are objects on a heap, because the API hands
    out pointers: an address is an index into the heap. Capabilities and RawMode objects are
    values: no exported or internal operation of the public API writes to one after its
    construction. *)
From Verif Require Import Prelude.
From Coq Require Import String Ascii.

Definition codes (s : string) : list Z := map (fun a => Z.of_N (N_of_ascii a)) (list_ascii_of_string s).
Close Scope string_scope.

(* ---------- value/capabilities.go ---------- *)

Record caps := Caps { ansi : bool; depth : Z; mouse : bool; altscreen : bool; cursor : bool }.

(* capabilities.go:11-23, core.go:373-384 *)
Definition DNone : Z := 0.
Definition D8 : Z := 8.
Definition D256 : Z := 256.
Definition DTrue : Z := 16777216.

(* capabilities.go:58-80, core.go:327-331 *)
Definition new_caps (a : bool) (d : Z) (m al c : bool) : caps :=
  let '(m, al, c) := if negb a then (false, false, false) else (m, al, c) in
  let d := if (d =? DNone) || (d =? D8) || (d =? D256) || (d =? DTrue) then d else DNone in
  Caps a d m al c.

(* core.go:345-352 *)
Definition supports_color (c : caps) : bool := DNone <? depth c.
Definition supports_true (c : caps) : bool := depth c =? DTrue.

(* core.go:387-401 *)
Definition depth_name (d : Z) : list Z :=
  if d =? DNone then codes "None"%string else if d =? D8 then codes "8 colors"%string else if d =? D256 then codes "256 colors"%string
  else if d =? DTrue then codes "TrueColor (16.7M colors)"%string else codes "Unknown"%string.

(* ---------- value/size.go, position.go, cell.go ---------- *)

Record size := Size { width : Z; height : Z }.
(* size.go:13-21 *)
Definition new_size (w h : Z) : size := Size (if w <? 1 then 1 else w) (if h <? 1 then 1 else h).
Record position := Pos { prow : Z; pcol : Z }.
(* position.go:12-20 *)
Definition new_position (r c : Z) : position := Pos (if r <? 0 then 0 else r) (if c <? 0 then 0 else c).
(* core.go:220-224, position.go:23-25; the receiver is a plain struct and may hold anything *)
Definition add (p : position) (dr dc : Z) : position :=
  let d := new_position (prow p) (pcol p) in new_position (prow d + dr) (pcol d + dc).
Record cell := Cell { content : list Z; cwidth : Z }.
(* cell.go:38-46 *)
Definition new_cell (s : list Z) (w : Z) : cell := Cell s (if w <? 0 then 0 else w).
(* core.go:270-281, unicode_service.go:41-46; sw is uniwidth.StringWidth *)
Definition string_width (sw : list Z -> Z) (s : list Z) : Z := match s with [] => 0 | _ => sw s end.
Definition new_cell_auto (sw : list Z -> Z) (s : list Z) : cell := new_cell s (string_width sw s).

(* ---------- service/capabilities_detector.go ---------- *)

(** Environment variables, by what they mean here; an unset variable is empty (os.Getenv). *)
Record env := Env { NO_COLOR : list Z; FORCE_COLOR : list Z; COLORTERM : list Z; TERM_PROGRAM : list Z; TERM : list Z; WT_SESSION : list Z }.
Inductive platform := Windows | Darwin | Unix.

Definition none_caps : caps := new_caps false DNone false false false.
Definition eqs (a b : list Z) : bool := list_eqb a b.
Definition isnil (s : list Z) : bool := match s with [] => true | _ => false end.

(** strings.ToLower, as far as a comparison with an ASCII word can tell: besides A-Z only two
    code points have an ASCII lower case (U+0130 and U+212A). *)
Definition lower (s : list Z) : list Z :=
  map (fun c => if (65 <=? c) && (c <=? 90) then c + 32 else if c =? 304 then 105 else if c =? 8490 then 107 else c) s.

(** strings.Contains *)
Fixpoint prefixb (p s : list Z) : bool := match p, s with [], _ => true | x :: p, y :: s => (x =? y) && prefixb p s | _, [] => false end.
Fixpoint containsb (s p : list Z) : bool := prefixb p s || match s with [] => false | _ :: r => containsb r p end.

(* capabilities_detector.go:53-81 *)
Definition detect_depth (e : env) : Z :=
  let ct := lower (COLORTERM e) in
  if eqs ct (codes "truecolor"%string) || eqs ct (codes "24bit"%string) then DTrue
  else if eqs (TERM_PROGRAM e) (codes "iTerm.app"%string) || eqs (TERM_PROGRAM e) (codes "vscode"%string) || eqs (TERM_PROGRAM e) (codes "Hyper"%string) || eqs (TERM_PROGRAM e) (codes "WarpTerminal"%string) then DTrue
  else if eqs (TERM_PROGRAM e) (codes "Apple_Terminal"%string) then D256
  else if containsb (TERM e) (codes "256color"%string) then D256
  else if containsb (TERM e) (codes "color"%string) then D8
  else if eqs (TERM e) (codes "dumb"%string) || isnil (TERM e) then DNone
  else D8.
(* capabilities_detector.go:83-91 *)
Definition detect_unix (e : env) : caps :=
  if eqs (TERM e) (codes "dumb"%string) || isnil (TERM e) then none_caps
  else new_caps true (detect_depth e) true true true.
(* capabilities_detector.go:93-102 *)
Definition detect_macos (e : env) : caps :=
  let d := detect_depth e in
  let d := if eqs (TERM_PROGRAM e) (codes "Apple_Terminal"%string) && (d =? DTrue) then D256 else d in
  new_caps true d true true true.
(* capabilities_detector.go:104-117 *)
Definition detect_windows (e : env) : caps :=
  if negb (isnil (WT_SESSION e)) then new_caps true DTrue true true true
  else if eqs (TERM_PROGRAM e) (codes "vscode"%string) then new_caps true DTrue true true true
  else new_caps true D8 false true true.
(* capabilities_detector.go:119-132 *)
Definition force_color (fc : list Z) : caps :=
  if eqs fc (codes "0"%string) then none_caps
  else if eqs fc (codes "1"%string) then new_caps true D8 true true true
  else if eqs fc (codes "2"%string) then new_caps true D256 true true true
  else if eqs fc (codes "3"%string) || eqs fc (codes "true"%string) then new_caps true DTrue true true true
  else new_caps true DTrue true true true.
(* capabilities_detector.go:31-51 *)
Definition detect (p : platform) (e : env) : caps :=
  if negb (isnil (NO_COLOR e)) then none_caps
  else if negb (isnil (FORCE_COLOR e)) then force_color (FORCE_COLOR e)
  else match p with Windows => detect_windows e | Darwin => detect_macos e | Unix => detect_unix e end.

(** The system a program was built for, and what platform_unix.go:1-5 and platform_windows.go:1-5
    tell the detector about it: macOS builds select platform_unix.go. *)
Inductive goos := GoWindows | GoDarwin | GoLinux.
Definition platform_of (g : goos) : platform := match g with GoWindows => Windows | GoDarwin => Unix | GoLinux => Unix end.
(* core.go:122-128 *)
Definition auto_detect (g : goos) (e : env) : caps := detect (platform_of g) e.

(* ---------- model/rawmode.go, model/terminal.go, core.go on the heap ---------- *)

(** The original terminal state is opaque. *)
Section Heap.
Variable T : Type.
Record rawmode := Raw { enabled : bool; original : T }.
(* rawmode.go:18-27, core.go:298-304: None is a nil state *)
Definition new_rawmode (s : option T) : option rawmode := match s with None => None | Some s => Some (Raw false s) end.

Record dterm := Term { tcaps : caps; traw : option rawmode; tsize : size }.
Definition heap := list dterm.
Definition addr := nat.
(* terminal.go:24-34 *)
Definition new_dterm (c : caps) : dterm := Term c None (new_size 80 24).
Definition alloc (h : heap) (t : dterm) : heap * addr := ((h ++ [t])%list, List.length h).
Definition write (h : heap) (a : addr) (f : dterm -> dterm) : heap :=
  match nth_error h a with Some t => set_nth h a (f t) | None => h end.

(* core.go:106-109, 122-136 *)
Definition newTerminal (h : heap) : heap * addr := alloc h (new_dterm (new_caps false DNone false false false)).
Definition autoDetect (g : goos) (e : env) (h : heap) : heap * addr := alloc h (new_dterm (auto_detect g e)).
Definition newTerminalWithCapabilities (c : option caps) (h : heap) : heap * addr :=
  match c with None => newTerminal h | Some c => alloc h (new_dterm c) end.
(* terminal.go:58-62, core.go:157-161: newTerm := *t; newTerm.size = size *)
Definition withSize (h : heap) (a : addr) (s : size) : option (heap * addr) :=
  match nth_error h a with
  | None => None
  | Some t => let '(h, n) := alloc h t in
              Some (write h n (fun t => Term (tcaps t) (traw t) (new_size (width s) (height s))), n)
  end.
(* terminal.go:65-69, core.go:173-179 *)
Definition withRawMode (h : heap) (a : addr) (rm : option rawmode) : option (heap * addr) :=
  match nth_error h a with
  | None => None
  | Some t => match rm with
              | None => Some (h, a)
              | Some r => let '(h, n) := alloc h t in
                          Some (write h n (fun t => Term (tcaps t) (Some r) (tsize t)), n)
              end
  end.
(* core.go:140-148, 164-166; terminal.go:47-49 *)
Definition capabilities (h : heap) (a : addr) : option caps := option_map tcaps (nth_error h a).
Definition size_of (h : heap) (a : addr) : option size := option_map tsize (nth_error h a).
Definition is_raw (h : heap) (a : addr) : option bool :=
  option_map (fun t => match traw t with Some r => enabled r | None => false end) (nth_error h a).

(* phoenix.go:109-132 *)
Definition phoenix_AutoDetectTerminal := autoDetect.
Definition phoenix_NewTerminal := newTerminal.

(** Programs: each call names the terminals it uses by the position of the call that returned
    them. *)
Inductive call :=
| CNew | CAuto (g : goos) (e : env) | CWithCaps (c : option (bool * Z * bool * bool * bool))
| CWithSize (v : nat) (s : size) | CWithRawMode (v : nat) (state : option T).
Definition mk_caps (c : bool * Z * bool * bool * bool) : caps := let '(a, d, m, al, cu) := c in new_caps a d m al cu.
(** One call: the heap and the results so far. A call on a result that does not exist does not
    happen. *)
Definition run1 (st : heap * list addr) (c : call) : heap * list addr :=
  let '(h, vs) := st in
  let res := match c with
    | CNew => Some (newTerminal h)
    | CAuto g e => Some (autoDetect g e h)
    | CWithCaps c => Some (newTerminalWithCapabilities (option_map mk_caps c) h)
    | CWithSize v s => match nth_error vs v with Some a => withSize h a s | None => None end
    | CWithRawMode v s => match nth_error vs v with Some a => withRawMode h a (new_rawmode s) | None => None end
    end in
  match res with Some (h', a) => (h', (vs ++ [a])%list) | None => (h, vs) end.
Definition run (cs : list call) (st : heap * list addr) : heap * list addr := fold_left run1 cs st.

(** What a program can ask of its v-th result. *)
Definition observe (st : heap * list addr) (v : nat) : option (caps * size * bool) :=
  match nth_error (snd st) v with
  | None => None
  | Some a => match nth_error (fst st) a with
              | None => None
              | Some t => Some (tcaps t, tsize t, match traw t with Some r => enabled r | None => false end)
              end
  end.
End Heap.
