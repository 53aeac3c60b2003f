(** Model of mouse/: mouse.go, internal/application/{mouse_handler,event_processor}.go,
    internal/infrastructure/parser/{sgr,x10,urxvt}_parser.go, internal/infrastructure/platform/terminal_mode.go,
    internal/infrastructure/ansi/mouse_ansi.go, internal/domain/service/*.go, internal/domain/model/{drag_state,hover_state,mouse_event}.go,
    internal/domain/value/*.go.
    Sequences are lists of bytes. Simplification: machine integers are [Z] without wrap-around except where a byte conversion is
    modelled; the clock is the argument [now] (nanoseconds) given to the parser; HoverState's position and lastUpdate, which no
    decision reads, are left out. *)
From Verif Require Import Prelude.

(* value/button.go:6-21 *)
Inductive button := BNone | BLeft | BMiddle | BRight | BWheelUp | BWheelDown.
Definition button_eqb (a b : button) : bool :=
  match a, b with BNone, BNone | BLeft, BLeft | BMiddle, BMiddle | BRight, BRight | BWheelUp, BWheelUp | BWheelDown, BWheelDown => true | _, _ => false end.
(* value/button.go:44-46 *)
Definition is_wheel (b : button) : bool := match b with BWheelUp | BWheelDown => true | _ => false end.
(* value/event_type.go:4-29 *)
Inductive etype := EPress | ERelease | EClick | EDoubleClick | ETripleClick | EDrag | EMotion | EScroll | EHoverEnter | EHoverLeave | EHoverMove.
(* value/modifiers.go:4-45: a bit set; iota is 1, 2, 3 on the three lines *)
Definition mod_shift : Z := 2. Definition mod_ctrl : Z := 4. Definition mod_alt : Z := 8.
Definition new_mods (shift ctrl alt : bool) : Z :=
  let m := 0 in
  let m := if shift then Z.lor m mod_shift else m in
  let m := if ctrl then Z.lor m mod_ctrl else m in
  if alt then Z.lor m mod_alt else m.
Definition has_shift (m : Z) : bool := negb (Z.land m mod_shift =? 0).
Definition has_ctrl (m : Z) : bool := negb (Z.land m mod_ctrl =? 0).
Definition has_alt (m : Z) : bool := negb (Z.land m mod_alt =? 0).
(* value/position.go:7-53 *)
Record pos := Pos { px : Z; py : Z }.
Definition distance (p q : pos) : Z :=
  let dx := px p - px q in let dy := py p - py q in
  (if dx <? 0 then - dx else dx) + (if dy <? 0 then - dy else dy).
(* model/mouse_event.go:12-18 *)
Record event := Event { etyp : etype; ebtn : button; epos : pos; emods : Z; etime : Z }.
(* 91-99 *)
Definition with_type (e : event) (t : etype) : event := Event t (ebtn e) (epos e) (emods e) (etime e).

(* ---------- parsers ---------- *)
(* strconv.Atoi: an optional sign, at least one digit, within int64 *)
Definition atoi (s : list Z) : option Z :=
  let '(neg, d) := match s with 43 :: t => (false, t) | 45 :: t => (true, t) | _ => (false, s) end in
  match d with
  | [] => None
  | _ => if forallb is_digit d then
           let v := undec_acc 0 d in
           let v := if neg then - v else v in
           if (-9223372036854775808 <=? v) && (v <=? 9223372036854775807) then Some v else None
         else None
  end.
(* strings.Split(s, ";") *)
Fixpoint split_semi (s : list Z) : list (list Z) :=
  match s with
  | [] => [[]]
  | c :: t => if c =? 59 then [] :: split_semi t
              else match split_semi t with h :: r => (c :: h) :: r | [] => [[c]] end
  end.
(* strings.TrimPrefix, HasPrefix, HasSuffix, TrimSuffix with a one-byte argument *)
Definition trim_prefix (c : Z) (s : list Z) : list Z := match s with h :: t => if h =? c then t else s | [] => [] end.
Definition has_prefix (c : Z) (s : list Z) : bool := match s with h :: _ => h =? c | [] => false end.
Definition has_suffix (c : Z) (s : list Z) : bool := has_prefix c (rev s).
Definition trim_suffix (c : Z) (s : list Z) : list Z := rev (trim_prefix c (rev s)).
Definition contains (c : Z) (s : list Z) : bool := existsb (fun x => x =? c) s.

(* sgr_parser.go:76-106; x10_parser.go:51-80 and urxvt_parser.go:68-97 are the same function *)
Definition decode_button (code : Z) : button * Z :=
  let shift := negb (Z.land code 4 =? 0) in
  let alt := negb (Z.land code 8 =? 0) in
  let ctrl := negb (Z.land code 16 =? 0) in
  let base := Z.land code 99 in
  let b := if base =? 0 then BLeft else if base =? 1 then BMiddle else if base =? 2 then BRight
           else if base =? 64 then BWheelUp else if base =? 65 then BWheelDown else BNone in
  (b, new_mods shift ctrl alt).
(* sgr_parser.go:133-164; x10_parser.go:96-127 and urxvt_parser.go:112-143 are the same function *)
Definition encode_button (b : button) (m : Z) : Z :=
  let code := match b with BLeft => 0 | BMiddle => 1 | BRight => 2 | BWheelUp => 64 | BWheelDown => 65 | BNone => 32 end in
  let code := if has_shift m then Z.lor code 4 else code in
  let code := if has_alt m then Z.lor code 8 else code in
  if has_ctrl m then Z.lor code 16 else code.
(* sgr_parser.go:27-73 *)
Definition sgr_parse (now : Z) (s : list Z) (is_press : bool) : option event :=
  match split_semi (trim_prefix 60 s) with
  | [a; b; c] =>
      match atoi a, atoi b, atoi c with
      | Some code, Some x, Some y =>
          let '(btn, mods) := decode_button code in
          let t := if is_wheel btn then EScroll else if is_press then EPress else ERelease in
          Some (Event t btn (Pos (x - 1) (y - 1)) mods now)
      | _, _, _ => None
      end
  | _ => None
  end.
(* sgr_parser.go:115-130 *)
Definition sgr_format (e : event) (is_press : bool) : list Z :=
  [27; 91; 60] ++ dec (encode_button (ebtn e) (emods e)) ++ [59] ++ dec (px (epos e) + 1) ++ [59] ++ dec (py (epos e) + 1) ++ [if is_press then 77 else 109].
(* x10_parser.go:23-48 *)
Definition x10_parse (now : Z) (d : list Z) : option event :=
  match d with
  | [a; b; c] =>
      let '(btn, mods) := decode_button (a - 32) in
      Some (Event (if is_wheel btn then EScroll else EPress) btn (Pos (b - 33) (c - 33)) mods now)
  | _ => None
  end.
(* x10_parser.go:83-93; byte() keeps the low eight bits *)
Definition x10_format (e : event) : list Z :=
  [27; 91; 77; (encode_button (ebtn e) (emods e) + 32) mod 256; (px (epos e) + 33) mod 256; (py (epos e) + 33) mod 256].
(* urxvt_parser.go:24-65 *)
Definition urxvt_parse (now : Z) (s : list Z) : option event :=
  match split_semi s with
  | [a; b; c] =>
      match atoi a, atoi b, atoi c with
      | Some code, Some x, Some y =>
          let '(btn, mods) := decode_button code in
          Some (Event (if is_wheel btn then EScroll else EPress) btn (Pos (x - 1) (y - 1)) mods now)
      | _, _, _ => None
      end
  | _ => None
  end.
(* urxvt_parser.go:100-109 *)
Definition urxvt_format (e : event) : list Z :=
  [27; 91] ++ dec (encode_button (ebtn e) (emods e)) ++ [59] ++ dec (px (epos e) + 1) ++ [59] ++ dec (py (epos e) + 1) ++ [77].
(* mouse_handler.go:63-113 *)
Definition parse_raw (now : Z) (seq : list Z) : option event :=
  let s := trim_prefix 91 (trim_prefix 27 seq) in
  if has_prefix 60 s then sgr_parse now (trim_suffix 109 (trim_suffix 77 s)) (has_suffix 77 s)
  else if has_prefix 77 s then x10_parse now (trim_prefix 77 s)
  else if contains 59 s && has_suffix 77 s then urxvt_parse now (trim_suffix 77 s)
  else None.

(* ---------- click detector ---------- *)
(* click_detector.go:13-18 *)
Record clickdet := CD { lastc : option event; ccount : Z; ctimeout : Z; ctol : Z }.
(* 23-34 *)
Definition new_clickdet (timeout tol : Z) : clickdet := CD None 0 (if timeout <=? 0 then 500000000 else timeout) (if tol <? 0 then 1 else tol).
(* 38-84 *)
Definition detect_click (d : clickdet) (e : event) : clickdet * option event :=
  match etyp e with
  | ERelease =>
      let n := match lastc d with
               | Some l => if (etime e - etime l <=? ctimeout d) && (distance (epos e) (epos l) <=? ctol d) && button_eqb (ebtn e) (ebtn l)
                           then ccount d + 1 else 1
               | None => 1
               end in
      let '(n, t) := if n =? 1 then (1, EClick) else if n =? 2 then (2, EDoubleClick) else if n =? 3 then (3, ETripleClick) else (1, EClick) in
      let c := with_type e t in
      (CD (Some c) n (ctimeout d) (ctol d), Some c)
  | _ => (d, None)
  end.
(* 87-90 *)
Definition reset_click (d : clickdet) : clickdet := CD None 0 (ctimeout d) (ctol d).

(* ---------- drag tracker ---------- *)
(* drag_state.go:11-18 *)
Record drag := Drag { dactive : bool; dstart : pos; dcur : pos; dbtn : button; dmods : Z; dthr : Z }.
(* drag_state.go:21-29 *)
Definition new_drag (thr : Z) : drag := Drag false (Pos 0 0) (Pos 0 0) BNone 0 (if thr <=? 0 then 2 else thr).
(* drag_state.go:58-64 *)
Definition is_drag (d : drag) : bool := if negb (dactive d) then false else dthr d <=? distance (dstart d) (dcur d).
(* drag_tracker.go:22-30, drag_state.go:32-38 *)
Definition drag_press (d : drag) (e : event) : drag :=
  match etyp e with EPress => Drag true (epos e) (epos e) (ebtn e) (emods e) (dthr d) | _ => d end.
(* drag_tracker.go:34-54, drag_state.go:41-45 *)
Definition drag_motion (d : drag) (e : event) : drag * option event :=
  if negb (dactive d) then (d, None)
  else let d' := Drag true (dstart d) (epos e) (dbtn d) (dmods d) (dthr d) in
       (d', if is_drag d' then Some (Event EDrag (dbtn d') (epos e) (dmods d') (etime e)) else None).
(* drag_tracker.go:58-69, drag_state.go:48-50; start and end positions are dropped by the only caller *)
Definition drag_release (d : drag) : drag * bool :=
  if negb (dactive d) then (d, false)
  else (Drag false (dstart d) (dcur d) (dbtn d) (dmods d) (dthr d), is_drag d).
(* drag_state.go:95-101 *)
Definition reset_drag (d : drag) : drag := Drag false (Pos 0 0) (Pos 0 0) BNone 0 (dthr d).

(* ---------- hover tracker ---------- *)
(* value/bounding_box.go:5-63 *)
Record box := Box { bx : Z; by_ : Z; bw : Z; bh : Z }.
Definition new_box (x y w h : Z) : box := Box x y (if w <? 0 then 0 else w) (if h <? 0 then 0 else h).
Definition box_contains (b : box) (p : pos) : bool :=
  (bx b <=? px p) && (px p <? bx b + bw b) && (by_ b <=? py p) && (py p <? by_ b + bh b).
Definition overlaps (a b : box) : bool :=
  (bx a <? bx b + bw b) && (bx b <? bx a + bw a) && (by_ a <? by_ b + bh b) && (by_ b <? by_ a + bh a).
(* hover_tracker.go:22-25: component ids are byte strings *)
Record area := Area { aid : list Z; abox : box }.
(* model/hover_state.go:11-16 *)
Record hover := Hover { hid : list Z; hactive : bool }.
Definition new_hover : hover := Hover [] false.
(* hover_state.go:49-51 *)
Definition hovering (h : hover) : bool := hactive h && negb (list_eqb (hid h) []).
(* hover_tracker.go:32-74, hover_state.go:54-79 *)
Definition hover_update (h : hover) (p : pos) (areas : list area) : hover * etype :=
  let id := match find (fun a => box_contains (abox a) p) areas with Some a => aid a | None => [] end in
  if list_eqb id [] then
    if hovering h then (if negb (hactive h) then h else Hover [] false, EHoverLeave) else (h, EMotion)
  else if negb (hovering h) then (Hover id true, EHoverEnter)
  else if negb (list_eqb id (hid h)) then (Hover id true, EHoverEnter)
  else (h, EHoverMove).

(* ---------- scroll, menu ---------- *)
(* scroll_calculator.go:15-39 *)
Definition scroll_lines (n : Z) : Z := if n <=? 0 then 3 else n.
Definition scroll_delta (n : Z) (e : event) : Z :=
  match etyp e with
  | EScroll => match ebtn e with BWheelUp => - scroll_lines n | BWheelDown => scroll_lines n | _ => 0 end
  | _ => 0
  end.
(* menu_positioner.go:42-92 *)
Definition menu_position (c : pos) (mw mh sw sh : Z) : pos :=
  let mw := if mw <? 0 then 0 else mw in let mh := if mh <? 0 then 0 else mh in
  let sw := if sw <? 0 then 0 else sw in let sh := if sh <? 0 then 0 else sh in
  if (sw <? mw) || (sh <? mh) then Pos 0 0
  else
    let x := px c in let y := py c in
    let x := if sw <? x + mw then (if sw - mw <? 0 then 0 else sw - mw) else x in
    let y := if sh <? y + mh then (if sh - mh <? 0 then 0 else sh - mh) else y in
    Pos x y.

(* ---------- event processor and handler ---------- *)
(* event_processor.go:19-52 *)
Record proc := Proc { pclick : clickdet; pdrag : drag; phover : hover; pscroll : Z }.
Definition new_proc_with (timeout tol thr lines : Z) : proc := Proc (new_clickdet timeout tol) (new_drag thr) new_hover lines.
Definition new_proc : proc := new_proc_with 500000000 1 2 3.
(* event_processor.go:56-97 *)
Definition process (p : proc) (e : event) : proc * list event :=
  match etyp e with
  | EPress => (Proc (pclick p) (drag_press (pdrag p) e) (phover p) (pscroll p), [e])
  | ERelease =>
      let '(d, was) := drag_release (pdrag p) in
      if was then (Proc (pclick p) d (phover p) (pscroll p), [e])
      else let '(c, o) := detect_click (pclick p) e in
           (Proc c d (phover p) (pscroll p), (match o with Some k => [k] | None => [] end) ++ [e])
  | EMotion =>
      let '(d, o) := drag_motion (pdrag p) e in
      (Proc (pclick p) d (phover p) (pscroll p), match o with Some k => [k] | None => [e] end)
  | _ => (p, [e])
  end.
(* event_processor.go:100-104 *)
Definition reset_proc (p : proc) : proc := Proc (reset_click (pclick p)) (reset_drag (pdrag p)) new_hover (pscroll p).
(* mouse_handler.go:50-60; None is the error result *)
Definition parse_sequence (p : proc) (now : Z) (seq : list Z) : proc * option (list event) :=
  match parse_raw now seq with
  | None => (p, None)
  | Some e => let '(p', es) := process p e in (p', Some es)
  end.

(* ---------- terminal mode (Enable(mode), which mouse.go never calls, is left out) ---------- *)
(* mouse_ansi.go:71-86; the buffer holds ten digits, so n < 10^10 *)
Definition itoa (n : Z) : list Z := if n =? 0 then [48] else if n <? 0 then [] else dec n.
(* mouse_ansi.go:39-68 *)
Definition enable_tracking (m : Z) : list Z := [27; 91; 63] ++ itoa m ++ [104].
Definition disable_tracking (m : Z) : list Z := [27; 91; 63] ++ itoa m ++ [108].
Definition mode_sgr : Z := 1006. Definition mode_button_motion : Z := 1002.
Definition enable_all_seq : list Z := enable_tracking mode_sgr ++ enable_tracking mode_button_motion.
Definition disable_all_seq : list Z := disable_tracking mode_sgr ++ disable_tracking mode_button_motion.
(* terminal_mode.go:13-16 *)
Record tmode := TM { ten : bool; tmd : Z }.
Definition new_tmode : tmode := TM false mode_sgr.
(* The writes of one call: each os.Stdout.WriteString either sends all its bytes or fails and sends none (simplification:
    no partial writes). [oks] says which writes succeed; the result is the state, the bytes sent, the rest of [oks], the error. *)
Definition write (oks : list bool) (s : list Z) : list Z * list bool * bool :=
  match oks with [] => (s, [], true) | true :: r => (s, r, true) | false :: r => ([], r, false) end.
(* terminal_mode.go:55-76 *)
Definition tm_disable (t : tmode) (oks : list bool) : tmode * list Z * list bool * bool :=
  if negb (ten t) then (t, [], oks, true)
  else
    let '(o1, oks, ok) := write oks (disable_tracking (tmd t)) in
    if negb ok then (t, o1, oks, false)
    else if tmd t =? mode_sgr then
      let '(o2, oks, ok) := write oks (disable_tracking mode_button_motion) in
      if negb ok then (t, o1 ++ o2, oks, false) else (TM false (tmd t), o1 ++ o2, oks, true)
    else (TM false (tmd t), o1, oks, true).
(* terminal_mode.go:89-105 *)
Definition tm_enable_all (t : tmode) (oks : list bool) : tmode * list Z * list bool * bool :=
  let '(t, o0, oks, ok) := if ten t then tm_disable t oks else (t, [], oks, true) in
  if negb ok then (t, o0, oks, false)
  else
    let '(o1, oks, ok) := write oks enable_all_seq in
    if negb ok then (t, o0 ++ o1, oks, false) else (TM true mode_sgr, o0 ++ o1, oks, true).
(* terminal_mode.go:108-121 *)
Definition tm_disable_all (t : tmode) (oks : list bool) : tmode * list Z * list bool * bool :=
  if negb (ten t) then (t, [], oks, true)
  else
    let '(o1, oks, ok) := write oks disable_all_seq in
    if negb ok then (t, o1, oks, false) else (TM false (tmd t), o1, oks, true).

(* ---------- queries of the value objects ---------- *)
(* value/button.go:49-51 *)
Definition is_button (b : button) : bool := match b with BLeft | BMiddle | BRight => true | _ => false end.
(* value/event_type.go:62-79 *)
Definition type_is_click (t : etype) : bool := match t with EClick | EDoubleClick | ETripleClick => true | _ => false end.
Definition type_is_hover (t : etype) : bool := match t with EHoverEnter | EHoverLeave | EHoverMove => true | _ => false end.
(* value/position.go:33-53, mouse_event.go:102-104 *)
Definition pos_eq (p q : pos) : bool := (px p =? px q) && (py p =? py q).
Definition within_tolerance (p q : pos) (t : Z) : bool := distance p q <=? t.
Definition event_is_at (e : event) (p : pos) (t : Z) : bool := within_tolerance (epos e) p t.
(* value/bounding_box.go:66-81 *)
Definition box_eq (a b : box) : bool := (bx a =? bx b) && (by_ a =? by_ b) && (bw a =? bw b) && (bh a =? bh b).
Definition box_empty (b : box) : bool := (bw b =? 0) || (bh b =? 0).
Definition box_area (b : box) : Z := bw b * bh b.
(* value/modifiers.go:48-77 *)
Definition s_none : list Z := [78; 111; 110; 101]. Definition s_shift : list Z := [83; 104; 105; 102; 116].
Definition s_ctrl : list Z := [67; 116; 114; 108]. Definition s_alt : list Z := [65; 108; 116].
Fixpoint join_plus (l : list (list Z)) : list Z := match l with [] => [] | [a] => a | a :: r => a ++ 43 :: join_plus r end.
Definition mods_string (m : Z) : list Z :=
  if m =? 0 then s_none else join_plus ((if has_shift m then [s_shift] else []) ++ (if has_ctrl m then [s_ctrl] else []) ++ (if has_alt m then [s_alt] else [])).
Definition mods_eq (m n : Z) : bool := m =? n.
