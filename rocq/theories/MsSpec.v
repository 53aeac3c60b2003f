(** What terminals send and how gestures are to be read, written from the xterm control-sequence documentation and the English
    properties, without the model's functions. *)
From Verif Require Import Prelude MsModel.

(** A mouse report of a terminal: kind, button held or turned, modifiers, zero-based column and row. *)
Inductive rkind := RPress | RRelease | RMotion.
Record report := Rep { rk : rkind; rb : button; rsh : bool; ralt : bool; rctrl : bool; rx : Z; ry : Z }.
(** xterm: 0, 1, 2 for the buttons, 3 for none, 64 and 65 for the wheel; add 4, 8, 16 for Shift, Meta, Control and 32 for motion. *)
Definition xbase (b : button) : Z := match b with BLeft => 0 | BMiddle => 1 | BRight => 2 | BNone => 3 | BWheelUp => 64 | BWheelDown => 65 end.
Definition xmods (r : report) : Z := (if rsh r then 4 else 0) + (if ralt r then 8 else 0) + (if rctrl r then 16 else 0).
Definition xmotion (r : report) : Z := match rk r with RMotion => 32 | _ => 0 end.
(** SGR (1006): CSI < code ; column ; row, ended by M, or by m for a release. *)
Definition sgr_report (r : report) : list Z :=
  [27; 91; 60] ++ dec (xbase (rb r) + xmods r + xmotion r) ++ [59] ++ dec (rx r + 1) ++ [59] ++ dec (ry r + 1) ++ [match rk r with RRelease => 109 | _ => 77 end].
(** The older encodings report a release as button 3. X10 (1000): CSI M and three bytes, each offset by 32. *)
Definition old_code (r : report) : Z := (match rk r with RRelease => 3 | _ => xbase (rb r) end) + xmods r + xmotion r.
Definition x10_report (r : report) : list Z := [27; 91; 77; 32 + old_code r; 32 + (rx r + 1); 32 + (ry r + 1)].
(** urxvt (1015): the same three numbers, the code still offset by 32, in decimal. *)
Definition urxvt_report (r : report) : list Z :=
  [27; 91] ++ dec (32 + old_code r) ++ [59] ++ dec (rx r + 1) ++ [59] ++ dec (ry r + 1) ++ [77].
(** What the program should be told about the button and modifiers. *)
Definition pressable (b : button) : Prop := b = BLeft \/ b = BMiddle \/ b = BRight.
Definition wheel (b : button) : Prop := b = BWheelUp \/ b = BWheelDown.
Definition tells (e : event) (r : report) : Prop :=
  ebtn e = rb r /\ px (epos e) = rx r /\ py (epos e) = ry r /\
  has_shift (emods e) = rsh r /\ has_alt (emods e) = ralt r /\ has_ctrl (emods e) = rctrl r.
Definition on_terminal (r : report) : Prop := 0 <= rx r < 1000000000 /\ 0 <= ry r < 1000000000.

(** Clicks. Cells apart: horizontal plus vertical steps. *)
Definition cells_apart (p q : pos) : Z := Z.abs (px p - px q) + Z.abs (py p - py q).
Definition follows (timeout tol : Z) (e prev : event) : bool :=
  (etime e - etime prev <=? timeout) && (cells_apart (epos e) (epos prev) <=? tol) && button_eqb (ebtn e) (ebtn prev).
(** How many clicks, newest first, hang together. *)
Fixpoint run_len (timeout tol : Z) (clicks : list event) : nat :=
  match clicks with
  | [] => 0
  | e :: t => match t with [] => 1 | prev :: _ => if follows timeout tol e prev then S (run_len timeout tol t) else 1 end
  end.
Definition click_kind (n : nat) : etype := match (n mod 3)%nat with 1%nat => EClick | 2%nat => EDoubleClick | _ => ETripleClick end.
Definition is_click (t : etype) : bool := match t with EClick | EDoubleClick | ETripleClick => true | _ => false end.

(** Running a processor over a history of raw events (the kinds a parser or a caller can hand in). *)
Definition raw (t : etype) : Prop := t = EPress \/ t = ERelease \/ t = EMotion \/ t = EScroll.
Fixpoint run (p : proc) (es : list event) : proc * list event :=
  match es with [] => (p, []) | e :: t => let '(p1, o1) := process p e in let '(p2, o2) := run p1 t in (p2, o1 ++ o2) end.
(** Running a handler over the sequences read; sequences that are not mouse reports give an error and no event. *)
Fixpoint feed (p : proc) (seqs : list (Z * list Z)) : proc * list event :=
  match seqs with
  | [] => (p, [])
  | (now, s) :: t => let '(p1, o) := parse_sequence p now s in let '(p2, o2) := feed p1 t in (p2, (match o with Some es => es | None => [] end) ++ o2)
  end.
Definition no_button_change (es : list event) : Prop := Forall (fun e => etyp e <> EPress /\ etyp e <> ERelease) es.
(** Where the pointer is after [es], starting at [p]. *)
Definition pointer (p : pos) (es : list event) : pos := fold_left (fun q e => match etyp e with EMotion => epos e | _ => q end) es p.

(** A terminal's private modes: which are on after reading [s]. *)
Inductive tst := TGround | TEsc | TCsi | TPriv (n : Z).
Definition upd (f : Z -> bool) (n : Z) (v : bool) : Z -> bool := fun k => if k =? n then v else f k.
Definition tfeed (st : tst * (Z -> bool)) (c : Z) : tst * (Z -> bool) :=
  let '(s, f) := st in
  match s with
  | TGround => (if c =? 27 then TEsc else TGround, f)
  | TEsc => (if c =? 91 then TCsi else TGround, f)
  | TCsi => (if c =? 63 then TPriv 0 else TGround, f)
  | TPriv n => if is_digit c then (TPriv (n * 10 + (c - 48)), f)
               else if c =? 104 then (TGround, upd f n true) else if c =? 108 then (TGround, upd f n false) else (TGround, f)
  end.
Definition tmodes (s : list Z) (f : Z -> bool) : tst * (Z -> bool) := fold_left tfeed s (TGround, f).
(** Mouse reporting is on while some tracking mode is on. *)
Definition tracking (f : Z -> bool) : bool := f 9 || f 1000 || f 1001 || f 1002 || f 1003.
