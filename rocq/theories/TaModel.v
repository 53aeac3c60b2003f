(** Model of the multi-line text area: components/input/internal/textarea
    (domain/model/buffer.go, killring.go, textarea.go; domain/service/editing.go, navigation.go;
    infrastructure/keybindings/emacs.go) and components/input/textarea.go.

    A line is the list of its runes (Go: string, converted with []rune at each edit).
    Simplifications: typed runes are valid code points (string(rune) would replace an invalid
    one by U+FFFD); the selection is always nil in this code (nothing ever creates one); the
    observer and boundary callbacks are recorded as events; rows and columns are naturals
    because every position the code builds is non-negative (the API's SetCursorPosition clamps),
    except the attempted positions reported at the top, which are Z. *)
From Verif Require Import Prelude.

Notation line := (list Z) (only parsing).
Definition buffer := list (list Z).
Definition nl : Z := 10.

(* ---------- buffer.go ---------- *)

(* buffer.go:41-46 *)
Definition get_line (b : buffer) (row : nat) : list Z := nth row b [].

(* buffer.go:64-88 *)
Definition insert_char (b : buffer) (row col : nat) (ch : Z) : buffer :=
  if (length b <=? row)%nat then b
  else let l := get_line b row in
       let col := if (length l <? col)%nat then length l else col in
       set_nth b row (firstn col l ++ ch :: skipn col l).

(* buffer.go:91-112 *)
Definition delete_char (b : buffer) (row col : nat) : buffer :=
  if (length b <=? row)%nat then b
  else let l := get_line b row in
       if (length l <=? col)%nat then b
       else set_nth b row (firstn col l ++ skipn (S col) l).

(* buffer.go:115-146 *)
Definition insert_newline (b : buffer) (row col : nat) : buffer :=
  if (length b <=? row)%nat then b
  else let l := get_line b row in
       let col := if (length l <? col)%nat then length l else col in
       let b' := set_nth b row (firstn col l) in
       firstn (S row) b' ++ skipn col l :: skipn (S row) b'.

(* buffer.go:149-172 (the deleted text is never used) *)
Definition delete_line (b : buffer) (row : nat) : buffer :=
  if (length b <=? row)%nat then b
  else if (length b =? 1)%nat then set_nth b 0 []
  else firstn row b ++ skipn (S row) b.

(* buffer.go:175-192 *)
Definition delete_to_line_end (b : buffer) (row col : nat) : buffer :=
  if (length b <=? row)%nat then b
  else let l := get_line b row in
       if (length l <=? col)%nat then b else set_nth b row (firstn col l).

(* buffer.go:195-204 *)
Definition set_line (b : buffer) (row : nat) (t : list Z) : buffer :=
  if (length b <=? row)%nat then b else set_nth b row t.

(* buffer.go:25-31: strings.Split on newline (never empty) *)
Fixpoint split_lines (t : list Z) : buffer :=
  match t with
  | [] => [[]]
  | c :: r =>
      match split_lines r with
      | l :: ls => if c =? nl then [] :: l :: ls else (c :: l) :: ls
      | [] => [[c]]
      end
  end.

(* buffer.go:54-56: strings.Join *)
Fixpoint join_lines (b : buffer) : list Z :=
  match b with
  | [] => []
  | [l] => l
  | l :: r => l ++ nl :: join_lines r
  end.

(* ---------- killring.go ---------- *)

Record ring := Ring { items : list (list Z); rmax : nat; ridx : nat }.

(* killring.go:14-23 *)
Definition new_ring (m : Z) : ring := Ring [] (if m <=? 0 then 10 else Z.to_nat m) 0.
(* killring.go:26-43 *)
Definition kill (k : ring) (t : list Z) : ring :=
  match t with
  | [] => k
  | _ =>
      let its := if (rmax k <=? length (items k))%nat then tl (items k) else items k in
      let its := its ++ [t] in
      Ring its (rmax k) (length its - 1)
  end.
(* killring.go:46-54 *)
Definition yank_text (k : ring) : list Z := nth (ridx k) (items k) [].
(* killring.go:58-71 *)
Definition yank_pop (k : ring) : ring :=
  match items k with
  | [] => k
  | _ => Ring (items k) (rmax k) (if (ridx k =? 0)%nat then length (items k) - 1 else ridx k - 1)
  end.

(* ---------- textarea.go ---------- *)

Definition pos : Type := Z * Z.
Record cfg := Cfg { width : Z; height : Z; wrap : bool; max_lines : Z; max_chars : Z; read_only : bool;
                    validator : option (pos -> pos -> bool) }.
Record ta := TA { buf : buffer; row : nat; col : nat; kring : ring; srow : Z; scol : Z; conf : cfg }.

(* textarea.go:45-61 *)
Definition new_ta : ta := TA [[]] 0 0 (new_ring 10) 0 0 (Cfg 80 24 false 0 0 false None).

Definition zpos (r c : nat) : pos := (Z.of_nat r, Z.of_nat c).
Definition cur_line (t : ta) : list Z := get_line (buf t) (row t).

(* textarea.go:134-141 *)
Definition with_buffer (t : ta) (b : buffer) : ta := TA b 0 0 (kring t) (srow t) (scol t) (conf t).
(* textarea.go:386-390 *)
Definition with_ring (t : ta) (k : ring) : ta := TA (buf t) (row t) (col t) k (srow t) (scol t) (conf t).

(* textarea.go:393-414, one axis *)
Definition scroll_to (p size s : Z) : Z :=
  let s := if p <? s then p else s in
  if s + size <=? p then p - size + 1 else s.
(* textarea.go:378-383 *)
Definition with_cursor (t : ta) (r c : nat) : ta :=
  let sr := scroll_to (Z.of_nat r) (height (conf t)) (srow t) in
  let sc := if wrap (conf t) then scol t else scroll_to (Z.of_nat c) (width (conf t)) (scol t) in
  TA (buf t) r c (kring t) sr sc (conf t).

(* textarea.go:213-226; None: the slice expression panics *)
Definition visible_lines (t : ta) : option (list (list Z)) :=
  let start := srow t in
  let n := Z.of_nat (length (buf t)) in
  let e := if n <? start + height (conf t) then n else start + height (conf t) in
  if n <=? start then Some []
  else if (start <? 0) || (e <? start) then None
  else Some (firstn (Z.to_nat (e - start)) (skipn (Z.to_nat start) (buf t))).

(* textarea.go:177-192 *)
Definition content_parts (t : ta) : list Z * list Z * list Z :=
  let l := cur_line t in
  if (length l <=? col t)%nat then (l, [32], [])
  else (firstn (col t) l, firstn 1 (skipn (col t) l), skipn (S (col t)) l).

(** Callbacks made: the observer (from, to) or the boundary handler (attempted position). *)
Inductive event := EMoved (from to : pos) | EBlocked (to : pos).

Definition allowed (t : ta) (from to : pos) : bool :=
  match validator (conf t) with Some v => v from to | None => true end.

(* ---------- navigation.go ---------- *)

(** The tail common to every motion (navigation.go:34-56, 79-101, 131-153, 183-205). *)
Definition go (t : ta) (r c : nat) : ta * list event :=
  let from := zpos (row t) (col t) in let to := zpos r c in
  if allowed t from to then (with_cursor t r c, [EMoved from to]) else (t, [EBlocked to]).

(* navigation.go:308-338 *)
Definition move_cursor (t : ta) (r c : nat) : ta * list event :=
  if ((row t =? r) && (col t =? c))%nat then (t, []) else go t r c.

(* navigation.go:16-57 *)
Definition move_left (t : ta) : ta * list event :=
  match col t, row t with
  | S c, r => go t r c
  | O, S r => go t r (length (get_line (buf t) r))
  | O, O => (t, [])
  end.
(* navigation.go:60-102 *)
Definition move_right (t : ta) : ta * list event :=
  if (col t <? length (cur_line t))%nat then go t (row t) (S (col t))
  else if (row t <? length (buf t) - 1)%nat then go t (S (row t)) 0
  else (t, []).
(* navigation.go:105-154; at the top the validator is still asked about row -1 *)
Definition edge (t : ta) (to : pos) : ta * list event :=
  match validator (conf t) with
  | Some v => if v (zpos (row t) (col t)) to then (t, []) else (t, [EBlocked to])
  | None => (t, [])
  end.
Definition move_up (t : ta) : ta * list event :=
  match row t with
  | O => edge t (-1, Z.of_nat (col t))
  | S r => go t r (Nat.min (col t) (length (get_line (buf t) r)))
  end.
(* navigation.go:157-206 *)
Definition move_down (t : ta) : ta * list event :=
  if (length (buf t) - 1 <=? row t)%nat then edge t (Z.of_nat (row t) + 1, Z.of_nat (col t))
  else go t (S (row t)) (Nat.min (col t) (length (get_line (buf t) (S (row t))))).

(* navigation.go:228-233: the first column from c the validator accepts *)
Fixpoint first_ok (t : ta) (c n : nat) : option nat :=
  match n with
  | O => None
  | S m => if allowed t (zpos (row t) (col t)) (zpos (row t) c) then Some c else first_ok t (S c) m
  end.
(* navigation.go:210-240 *)
Definition move_line_start (t : ta) : ta * list event :=
  match validator (conf t) with
  | None => move_cursor t (row t) 0
  | Some _ =>
      match first_ok t 0 (S (length (cur_line t))) with
      | Some c => move_cursor t (row t) c
      | None => (t, [EBlocked (zpos (row t) 0)])
      end
  end.
(* navigation.go:243-261 *)
Definition move_line_end (t : ta) : ta * list event := move_cursor t (row t) (length (cur_line t)).
Definition move_buffer_start (t : ta) : ta * list event := move_cursor t 0 0.
Definition move_buffer_end (t : ta) : ta * list event :=
  let r := (length (buf t) - 1)%nat in move_cursor t r (length (get_line (buf t) r)).

(* navigation.go:341-348 *)
Definition boundary (r : Z) : bool :=
  existsb (Z.eqb r) [32; 9; 46; 44; 59; 58; 33; 63; 40; 41; 91; 93; 123; 125; 47; 92; 124; 45;
                     95; 61; 43; 42; 38; 37; 36; 35; 64; 126; 96; 39; 34; 60; 62].

(** Advance from c while the rune there satisfies f (the loops at navigation.go:270-277). *)
Fixpoint advance (f : Z -> bool) (l : list Z) : nat :=
  match l with [] => O | x :: r => if f x then S (advance f r) else O end.
Definition word_end (l : list Z) (c : nat) : nat := (c + advance (fun r => negb (boundary r)) (skipn c l))%nat.
(* navigation.go:264-280 *)
Definition forward_col (l : list Z) (c : nat) : nat :=
  let c := word_end l c in (c + advance boundary (skipn c l))%nat.
Definition forward_word (t : ta) : ta * list event := move_cursor t (row t) (forward_col (cur_line t) (col t)).

(* navigation.go:294-296: for newCol > 0 && isWordBoundary(line[newCol]) *)
Fixpoint back1 (l : list Z) (c : nat) : nat :=
  match c with S c' => if boundary (nth c l 0) then back1 l c' else c | O => O end.
(* navigation.go:299-301: for newCol > 0 && !isWordBoundary(line[newCol-1]) *)
Fixpoint back2 (l : list Z) (c : nat) : nat :=
  match c with S c' => if boundary (nth c' l 0) then c else back2 l c' | O => O end.
Definition backward_col (l : list Z) (c : nat) : nat := back2 l (back1 l (c - 1)).
(* navigation.go:283-304 *)
Definition backward_word (t : ta) : ta * list event :=
  match col t with O => (t, []) | _ => move_cursor t (row t) (backward_col (cur_line t) (col t)) end.

(* ---------- editing.go ---------- *)

(* editing.go:16-32 *)
Definition type_char (t : ta) (ch : Z) : ta :=
  if read_only (conf t) then t
  else with_cursor (with_buffer t (insert_char (buf t) (row t) (col t) ch)) (row t) (S (col t)).

(* editing.go:36-98 *)
Definition backspace (t : ta) : ta * list event :=
  if read_only (conf t) then (t, [])
  else
    match col t, row t with
    | O, O => (t, [])
    | S c, r =>
        if allowed t (zpos (row t) (col t)) (zpos r c)
        then (with_cursor (with_buffer t (delete_char (buf t) r c)) r c, [])
        else (t, [EBlocked (zpos r c)])
    | O, S r =>
        let plen := length (get_line (buf t) r) in
        if allowed t (zpos (row t) (col t)) (zpos r plen)
        then let b := set_line (buf t) r (get_line (buf t) r ++ cur_line t) in
             (with_cursor (with_buffer t (delete_line b (S r))) r plen, [])
        else (t, [EBlocked (zpos r plen)])
    end.

(* editing.go:112-118, 165-176: pull the next line up *)
Definition join_next (t : ta) : buffer :=
  delete_line (set_line (buf t) (row t) (cur_line t ++ get_line (buf t) (S (row t)))) (S (row t)).

(* editing.go:101-125 *)
Definition delete_forward (t : ta) : ta :=
  if read_only (conf t) then t
  else if (length (cur_line t) <=? col t)%nat then
    if (row t <? length (buf t) - 1)%nat then with_cursor (with_buffer t (join_next t)) (row t) (col t) else t
  else with_cursor (with_buffer t (delete_char (buf t) (row t) (col t))) (row t) (col t).

(* editing.go:128-150 *)
Definition newline (t : ta) : ta :=
  if read_only (conf t) then t
  else if (0 <? max_lines (conf t)) && (max_lines (conf t) <=? Z.of_nat (length (buf t))) then t
  else with_cursor (with_buffer t (insert_newline (buf t) (row t) (col t))) (S (row t)) 0.

(* editing.go:153-188; no cursor is set after WithBuffer *)
Definition kill_line (t : ta) : ta :=
  if read_only (conf t) then t
  else if (length (cur_line t) <=? col t)%nat then
    if (row t <? length (buf t) - 1)%nat then with_ring (with_buffer t (join_next t)) (kill (kring t) [nl]) else t
  else with_ring (with_buffer t (delete_to_line_end (buf t) (row t) (col t))) (kill (kring t) (skipn (col t) (cur_line t))).

(* editing.go:215-218, 263-266: delete n characters at one place *)
Definition delete_n (b : buffer) (r c n : nat) : buffer := Nat.iter n (fun b => delete_char b r c) b.

(* editing.go:191-221; no cursor is set after WithBuffer *)
Definition kill_word (t : ta) : ta :=
  if read_only (conf t) then t
  else let e := word_end (cur_line t) (col t) in
       if (e =? col t)%nat then t
       else with_ring (with_buffer t (delete_n (buf t) (row t) (col t) (e - col t)))
              (kill (kring t) (firstn (e - col t) (skipn (col t) (cur_line t)))).

(* editing.go:224-272 *)
Definition kill_word_backward (t : ta) : ta :=
  if read_only (conf t) then t
  else match col t with
  | O => t
  | _ => let s := backward_col (cur_line t) (col t) in
         with_ring (with_cursor (with_buffer t (delete_n (buf t) (row t) s (col t - s))) (row t) s)
           (kill (kring t) (firstn (col t - s) (skipn s (cur_line t))))
  end.

(* editing.go:292-303 *)
Fixpoint insert_text (b : buffer) (r c : nat) (text : list Z) : buffer * nat * nat :=
  match text with
  | [] => (b, r, c)
  | ch :: rest =>
      if ch =? nl then insert_text (insert_newline b r c) (S r) 0 rest
      else insert_text (insert_char b r c ch) r (S c) rest
  end.
(* editing.go:275-307 *)
Definition yank (t : ta) : ta :=
  if read_only (conf t) then t
  else match yank_text (kring t) with
  | [] => t
  | text => let '(b, r, c) := insert_text (buf t) (row t) (col t) text in with_cursor (with_buffer t b) r c
  end.

(* ---------- emacs.go ---------- *)

Inductive kt := KRune (r : Z) | KSpace | KUp | KDown | KLeft | KRight | KHome | KEnd | KBackspace | KDelete | KEnter | KOther.
Record key := Key { k_ctrl : bool; k_alt : bool; k_t : kt }.

Definition is_letter (lower r : Z) : bool := (r =? lower) || (r =? lower - 32).
Definition quiet_ev (t : ta) : ta * list event := (t, []).

(* emacs.go:30-79 *)
Definition on_ctrl (r : Z) (t : ta) : option (ta * list event) :=
  if is_letter 97 r then Some (move_line_start t)
  else if is_letter 101 r then Some (move_line_end t)
  else if is_letter 112 r then Some (move_up t)
  else if is_letter 110 r then Some (move_down t)
  else if is_letter 102 r then Some (move_right t)
  else if is_letter 98 r then Some (move_left t)
  else if is_letter 107 r then Some (quiet_ev (kill_line t))
  else if is_letter 117 r then Some (let (t', ev) := move_line_start t in (kill_line t', ev))
  else if is_letter 119 r then Some (quiet_ev (kill_word_backward t))
  else if is_letter 121 r then Some (quiet_ev (yank t))
  else if is_letter 100 r then Some (quiet_ev (delete_forward t))
  else if is_letter 104 r then Some (backspace t)
  else if is_letter 109 r then Some (quiet_ev (newline t))
  else None.
(* emacs.go:82-105 *)
Definition on_alt (k : kt) (t : ta) : option (ta * list event) :=
  match k with
  | KRune r =>
      if is_letter 102 r then Some (forward_word t)
      else if is_letter 98 r then Some (backward_word t)
      else if r =? 60 then Some (move_buffer_start t)
      else if r =? 62 then Some (move_buffer_end t)
      else if is_letter 100 r then Some (quiet_ev (kill_word t))
      else None
  | KBackspace => Some (quiet_ev (kill_word_backward t))
  | _ => None
  end.
(* emacs.go:108-146 *)
Definition on_plain (k : kt) (t : ta) : ta * list event :=
  match k with
  | KUp => move_up t | KDown => move_down t | KLeft => move_left t | KRight => move_right t
  | KHome => move_line_start t | KEnd => move_line_end t
  | KBackspace => backspace t | KDelete => quiet_ev (delete_forward t) | KEnter => quiet_ev (newline t)
  | KSpace => quiet_ev (type_char t 32) | KRune r => quiet_ev (type_char t r)
  | KOther => (t, [])
  end.
(* emacs.go:28-150 *)
Definition handle (k : key) (t : ta) : ta * list event :=
  match (if k_ctrl k then match k_t k with KRune r => on_ctrl r t | _ => None end else None) with
  | Some x => x
  | None =>
      match (if k_alt k then on_alt (k_t k) t else None) with
      | Some x => x
      | None => if k_ctrl k || k_alt k then (t, []) else on_plain (k_t k) t
      end
  end.

(* ---------- the public API, components/input/textarea.go 72-220 ---------- *)

Inductive op :=
| OKey (k : key) | OSetValue (text : list Z) | OMoveCursorToEnd | OSetCursor (r c : Z)
| OSize (w h : Z) | OMaxLines (n : Z) | OMaxChars (n : Z) | OReadOnly (b : bool) | OWrap (b : bool)
| OValidator (v : pos -> pos -> bool).

Definition set_cfg (t : ta) (c : cfg) : ta := TA (buf t) (row t) (col t) (kring t) (srow t) (scol t) c.
(* textarea.go (model) 269-280: no scrolling *)
Definition cursor_to_end (t : ta) : ta :=
  let r := (length (buf t) - 1)%nat in
  TA (buf t) r (length (get_line (buf t) r)) (kring t) (srow t) (scol t) (conf t).
(* textarea.go (model) 285-311 *)
Definition set_cursor (t : ta) (r c : Z) : ta :=
  let r := clampZ 0 (Z.of_nat (length (buf t)) - 1) r in
  let c := clampZ 0 (Z.of_nat (length (get_line (buf t) (Z.to_nat r)))) c in
  TA (buf t) (Z.to_nat r) (Z.to_nat c) (kring t) (srow t) (scol t) (conf t).

Definition apply (o : op) (t : ta) : ta :=
  let c := conf t in
  match o with
  | OKey k => fst (handle k t)
  | OSetValue s => with_buffer t (split_lines s)
  | OMoveCursorToEnd => cursor_to_end t
  | OSetCursor r c => set_cursor t r c
  | OSize w h => set_cfg t (Cfg w h (wrap c) (max_lines c) (max_chars c) (read_only c) (validator c))
  | OMaxLines n => set_cfg t (Cfg (width c) (height c) (wrap c) n (max_chars c) (read_only c) (validator c))
  | OMaxChars n => set_cfg t (Cfg (width c) (height c) (wrap c) (max_lines c) n (read_only c) (validator c))
  | OReadOnly b => set_cfg t (Cfg (width c) (height c) (wrap c) (max_lines c) (max_chars c) b (validator c))
  | OWrap b => set_cfg t (Cfg (width c) (height c) b (max_lines c) (max_chars c) (read_only c) (validator c))
  | OValidator v => set_cfg t (Cfg (width c) (height c) (wrap c) (max_lines c) (max_chars c) (read_only c) (Some v))
  end.
Definition apply_all (os : list op) (t : ta) : ta := fold_left (fun t o => apply o t) os t.
