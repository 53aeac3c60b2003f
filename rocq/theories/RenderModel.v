(** Model of /repo/render: styles, cells, frame buffer, differ, ANSI writer, renderer.
    Simplifications common to the file: runes are code points [Z]; the output stream is
    the list of code points written (UTF-8 encoding is transparent); writes to the
    underlying io.Writer never fail; mutexes are dropped (every method holds one for
    its whole duration); buffers are values (as shared memory, with the pool: RpModel). *)
From Verif Require Import Prelude.

(* ---------- render/internal/domain/value/color.go:8-20, 38-40 ---------- *)
Record color := Color { cr : Z; cg : Z; cb : Z }.
Definition color_eqb (a b : color) : bool :=
  (cr a =? cr b) && (cg a =? cg b) && (cb a =? cb b).

(* ---------- render/internal/domain/value/style.go:10-21 ---------- *)
(** A *Color is [option color]; pointers are compared by value by the code. *)
Record style := Style {
  fg : option color; bg : option color;
  bold : bool; italic : bool; underline : bool; reverse_ : bool;
  dim : bool; blink : bool; hidden : bool; strike : bool }.

(* style.go:24-26 NewStyle *)
Definition style0 : style := Style None None false false false false false false false false.

(* style.go:156-181 Equals *)
Definition style_eqb (a b : style) : bool :=
  opt_eqb color_eqb (fg a) (fg b) && opt_eqb color_eqb (bg a) (bg b) &&
  eqb (bold a) (bold b) && eqb (italic a) (italic b) && eqb (underline a) (underline b) &&
  eqb (reverse_ a) (reverse_ b) && eqb (dim a) (dim b) && eqb (blink a) (blink b) &&
  eqb (hidden a) (hidden b) && eqb (strike a) (strike b).

Definition is_none {A} (o : option A) : bool := match o with None => true | _ => false end.

(* style.go:184-188 IsEmpty *)
Definition style_empty (s : style) : bool :=
  is_none (fg s) && is_none (bg s) && negb (bold s) && negb (italic s) &&
  negb (underline s) && negb (reverse_ s) && negb (dim s) && negb (blink s) &&
  negb (hidden s) && negb (strike s).

(** strings.Join(l, ";") *)
Fixpoint join59 (l : list (list Z)) : list Z :=
  match l with
  | [] => []
  | [a] => a
  | a :: rest => a ++ 59 :: join59 rest
  end.

(** "38;2;r;g;b" / "48;2;r;g;b", style.go:200-209 *)
Definition rgb_code (lead : Z) (c : color) : list Z :=
  join59 [dec lead; dec 2; dec (cr c); dec (cg c); dec (cb c)].

Definition opt_code (lead : Z) (o : option color) : list (list Z) :=
  match o with None => [] | Some c => [rgb_code lead c] end.

Definition flag_code (b : bool) (n : Z) : list (list Z) := if b then [dec n] else [].

(* style.go:197-235, the [codes] slice *)
Definition style_codes (s : style) : list (list Z) :=
  opt_code 38 (fg s) ++ opt_code 48 (bg s) ++
  flag_code (bold s) 1 ++ flag_code (dim s) 2 ++ flag_code (italic s) 3 ++
  flag_code (underline s) 4 ++ flag_code (blink s) 5 ++ flag_code (reverse_ s) 7 ++
  flag_code (hidden s) 8 ++ flag_code (strike s) 9.

(* style.go:192-238 ToANSI *)
Definition to_ansi (s : style) : list Z :=
  if style_empty s then [] else 27 :: 91 :: join59 (style_codes s) ++ [109].

(* ---------- render/internal/domain/model/cell.go:10-14 ---------- *)
Record cell := Cell { char : Z; cstyle : style; cwidth : Z }.

(* cell.go:28-34 NewEmptyCell *)
Definition empty_cell : cell := Cell 32 style0 1.

(* cell.go:61-63 IsEmpty *)
Definition cell_empty (c : cell) : bool := (char c =? 32) && style_empty (cstyle c).

(* cell.go:66-70 Equals *)
Definition cell_eqb (a b : cell) : bool :=
  (char a =? char b) && (cwidth a =? cwidth b) && style_eqb (cstyle a) (cstyle b).

(* ---------- render/internal/domain/model/buffer.go:13-17 ---------- *)
Record buffer := Buffer { bw : nat; bh : nat; cells : list (list cell) }.

(* buffer.go:21-42 NewBuffer: negative sizes become 0 *)
Definition new_buffer (w h : Z) : buffer :=
  let w' := Z.to_nat w in let h' := Z.to_nat h in
  Buffer w' h' (repeat (repeat empty_cell w') h').

Definition in_range (b : buffer) (x y : Z) : bool :=
  negb ((x <? 0) || (Z.of_nat (bw b) <=? x) || (y <? 0) || (Z.of_nat (bh b) <=? y)).

Definition cell_at (b : buffer) (x y : nat) : cell := nth x (nth y (cells b) []) empty_cell.

(* buffer.go:60-66 Get *)
Definition get (b : buffer) (x y : Z) : cell :=
  if in_range b x y then cell_at b (Z.to_nat x) (Z.to_nat y) else empty_cell.

(* buffer.go:69-75 Set *)
Definition set (b : buffer) (x y : Z) (c : cell) : buffer :=
  if in_range b x y then
    Buffer (bw b) (bh b)
      (set_nth (cells b) (Z.to_nat y)
         (set_nth (nth (Z.to_nat y) (cells b) []) (Z.to_nat x) c))
  else b.

(* buffer.go:78-84 Clear *)
Definition clear_buf (b : buffer) : buffer := new_buffer (Z.of_nat (bw b)) (Z.of_nat (bh b)).

(* buffer.go:87-94 Fill; the cell's width is computed by NewCell (oracle) *)
Definition fill (b : buffer) (c : cell) : buffer :=
  Buffer (bw b) (bh b) (repeat (repeat c (bw b)) (bh b)).

(** buffer.go:99-135 SetString. [cl] is the text already split into grapheme clusters
    by uniseg, each given by its first rune and its width (both oracles of uniseg);
    clusters without runes do not exist. Returns the buffer and the cells written. *)
Fixpoint set_clusters (b : buffer) (x y : Z) (cl : list (Z * Z)) (st : style) (written : Z)
  : buffer * Z :=
  match cl with
  | [] => (b, written)
  | (ch, w) :: rest =>
      if Z.of_nat (bw b) <=? x then (b, written)
      else set_clusters (set b x y (Cell ch st w)) (x + w) y rest st (written + w)
  end.

Definition set_string (b : buffer) (x y : Z) (cl : list (Z * Z)) (st : style) : buffer * Z :=
  if (y <? 0) || (Z.of_nat (bh b) <=? y) || (x <? 0) then (b, 0)
  else set_clusters b x y cl st 0.

(** for x := from; x < width; x++ { Set(x, y, empty) }, buffer.go:149-151 *)
Fixpoint blank_from (b : buffer) (x y : Z) (n : nat) : buffer :=
  match n with
  | O => b
  | S n' => blank_from (set b x y empty_cell) (x + 1) y n'
  end.

(* buffer.go:139-152 SetLine *)
Definition set_line (b : buffer) (y : Z) (cl : list (Z * Z)) (st : style) : buffer :=
  if (y <? 0) || (Z.of_nat (bh b) <=? y) then b
  else let '(b', written) := set_string b 0 y cl st in
       blank_from b' written y (Z.to_nat (Z.of_nat (bw b) - written)).

(* buffer.go:167-181 Resize: copy the overlapping region into a fresh buffer.
   The two nested copying loops are written as building each row. *)
Definition resize (b : buffer) (w h : Z) : buffer :=
  let w' := Z.to_nat w in let h' := Z.to_nat h in
  Buffer w' h'
    (map (fun y => map (fun x =>
       if (y <? bh b)%nat && (x <? bw b)%nat then cell_at b x y else empty_cell)
       (seq 0 w')) (seq 0 h')).

(* ---------- render/internal/domain/service/diff.go ---------- *)
(* diff.go:22-26; the differ only produces OpTypeSet operations *)
Record op := Op { ox : Z; oy : Z; ocell : cell }.

(** for y := 0..h-1 { for x := 0..w-1 } as the list of visited positions *)
Definition coords (w h : nat) : list (nat * nat) :=
  flat_map (fun y => map (fun x => (x, y)) (seq 0 w)) (seq 0 h).

(* diff.go:72-92 diffFullBuffer *)
Definition diff_full (b : buffer) : list op :=
  flat_map (fun '(x, y) =>
    let c := get b (Z.of_nat x) (Z.of_nat y) in
    if cell_empty c then [] else [Op (Z.of_nat x) (Z.of_nat y) c]) (coords (bw b) (bh b)).

Definition same_dims (a b : buffer) : bool := (bw a =? bw b)%nat && (bh a =? bh b)%nat.

(* diff.go:38-69 Diff (nil buffers: None) *)
Definition diff (old new : buffer) : list op :=
  if same_dims old new then
    flat_map (fun '(x, y) =>
      let o := get old (Z.of_nat x) (Z.of_nat y) in
      let n := get new (Z.of_nat x) (Z.of_nat y) in
      if cell_eqb o n then [] else [Op (Z.of_nat x) (Z.of_nat y) n]) (coords (bw new) (bh new))
  else diff_full new.

Definition diff_opt (old new : option buffer) : list op :=
  match old, new with Some o, Some n => diff o n | _, _ => [] end.

(* diff.go:137-140 CountChanges *)
Definition count_changes (old new : option buffer) : nat := length (diff_opt old new).

(* diff.go:144-163 HasChanges *)
Definition has_changes (old new : option buffer) : bool :=
  match old, new with
  | Some o, Some n =>
      if same_dims o n then
        existsb (fun '(x, y) => negb (cell_eqb (get o (Z.of_nat x) (Z.of_nat y))
                                               (get n (Z.of_nat x) (Z.of_nat y))))
                (coords (bw n) (bh n))
      else true
  | _, _ => true
  end.

(* diff.go:115-133 DiffLine *)
Definition diff_line (old new : list cell) (y : Z) : list op :=
  if (length old =? length new)%nat then
    flat_map (fun x =>
      if cell_eqb (nth x old empty_cell) (nth x new empty_cell) then []
      else [Op (Z.of_nat x) y (nth x new empty_cell)]) (seq 0 (length new))
  else [].

(* ---------- render/internal/domain/service/optimize.go ---------- *)
(* optimize.go:31-55 RemoveRedundant: appends every operation in both branches *)
Fixpoint remove_redundant_loop (ops : list op) (last : style) : list op :=
  match ops with
  | [] => []
  | o :: rest =>
      if negb (style_eqb (cstyle (ocell o)) last)
      then o :: remove_redundant_loop rest (cstyle (ocell o))
      else o :: remove_redundant_loop rest last
  end.
Definition remove_redundant (ops : list op) (cur : style) : list op :=
  remove_redundant_loop ops cur.

(* optimize.go:136-145 ShouldFullRedraw. float64(changed)/float64(total) > 0.75 is
   4*changed > 3*total (exact for the sizes a screen can have). *)
Definition should_full_redraw (changed total : Z) : bool :=
  if total =? 0 then false else 3 * total <? 4 * changed.

(* ---------- render/internal/infrastructure/ansi ---------- *)
(* codes.go:69-71 MoveCursor *)
Definition move_cursor_code (x y : Z) : list Z :=
  27 :: 91 :: dec (y + 1) ++ 59 :: dec (x + 1) ++ [72].
(* codes.go:38 ClearScreen *)
Definition clear_screen_code : list Z := [27; 91; 50; 74].
(* codes.go:47-48 CursorHide, CursorShow *)
Definition cursor_hide_code : list Z := [27; 91; 63; 50; 53; 108].
Definition cursor_show_code : list Z := [27; 91; 63; 50; 53; 104].

(* writer.go:15-22; the bufio buffer is represented by the list of code points each
   operation writes *)
Record writer := Writer { wx : Z; wy : Z; wstyle : style }.

(* writer.go:25-33 NewWriter *)
Definition new_writer : writer := Writer 0 0 style0.

(* writer.go:47-63 MoveCursor *)
Definition w_move (w : writer) (x y : Z) : writer * list Z :=
  if (x =? wx w) && (y =? wy w) then (w, [])
  else (Writer x y (wstyle w), move_cursor_code x y).

(* writer.go:93-116 WriteCell *)
Definition w_cell (w : writer) (c : cell) : writer * list Z :=
  let '(st, out) :=
    if style_eqb (cstyle c) (wstyle w) then (wstyle w, [])
    else (cstyle c, to_ansi (cstyle c)) in
  (Writer (wx w + cwidth c) (wy w) st, out ++ [char c]).

(* writer.go:162-168 Clear *)
Definition w_clear (w : writer) : writer * list Z := (w, clear_screen_code).

(** MoveCursor(x,y) then WriteCell(c): renderer.go:140-145 and 170-175 *)
Definition w_cell_at (w : writer) (o : op) : writer * list Z :=
  let '(w1, o1) := w_move w (ox o) (oy o) in
  let '(w2, o2) := w_cell w1 (ocell o) in
  (w2, o1 ++ o2).

(* renderer.go:166-193 applyOperations (all operations are OpTypeSet) *)
Fixpoint apply_ops (w : writer) (ops : list op) : writer * list Z :=
  match ops with
  | [] => (w, [])
  | o :: rest =>
      let '(w1, o1) := w_cell_at w o in
      let '(w2, o2) := apply_ops w1 rest in
      (w2, o1 ++ o2)
  end.

(* ---------- render/internal/application/renderer.go:19-32 ---------- *)
(** currentBuffer is never read; it is omitted. *)
Record renderer := Renderer { rw : writer; prev : buffer; rwidth : Z; rheight : Z }.

(* renderer.go:35-52 NewRenderer *)
Definition new_renderer (w h : Z) : renderer := Renderer new_writer (new_buffer w h) w h.

(* renderer.go:124-161 renderFullScreen. The double loop writes exactly the
   non-empty cells in row-major order, i.e. [diff_full]. Clone is the identity. *)
Definition render_full (r : renderer) (b : buffer) : renderer * list Z :=
  let '(w1, o1) := w_clear (rw r) in
  let '(w2, o2) := w_move w1 0 0 in
  let '(w3, o3) := apply_ops w2 (diff_full b) in
  (Renderer w3 b (Z.of_nat (bw b)) (Z.of_nat (bh b)), o1 ++ o2 ++ o3).

(* renderer.go:75-119 Render (non-nil buffer) *)
Definition render (r : renderer) (b : buffer) : renderer * list Z :=
  if negb ((Z.of_nat (bw b) =? rwidth r) && (Z.of_nat (bh b) =? rheight r)) then render_full r b
  else
    let ops := diff (prev r) b in
    match ops with
    | [] => (r, [])
    | _ =>
        let ops := remove_redundant ops (wstyle (rw r)) in
        if should_full_redraw (Z.of_nat (length ops)) (rwidth r * rheight r)
        then render_full r b
        else let '(w1, o1) := apply_ops (rw r) ops in
             (Renderer w1 b (rwidth r) (rheight r), o1)
    end.

(* renderer.go:204-222 clearUnlocked *)
Definition r_clear (r : renderer) : renderer * list Z :=
  let '(w1, o1) := w_clear (rw r) in
  let '(w2, o2) := w_move w1 0 0 in
  (Renderer w2 (clear_buf (prev r)) (rwidth r) (rheight r), o1 ++ o2).

(* renderer.go:225-242 Resize *)
Definition r_resize (r : renderer) (w h : Z) : renderer * list Z :=
  r_clear (Renderer (rw r) (new_buffer w h) w h).

(** The public calls on a renderer (renderer.go:75, 196, 225, 245, 257; Render(nil)
    returns immediately). *)
Inductive call :=
| Render (b : buffer) | RenderNil | Clear | Resize (w h : Z) | HideCursor | ShowCursor.

Definition do_call (r : renderer) (c : call) : renderer * list Z :=
  match c with
  | Render b => render r b
  | RenderNil => (r, [])
  | Clear => r_clear r
  | Resize w h => r_resize r w h
  | HideCursor => (r, cursor_hide_code)
  | ShowCursor => (r, cursor_show_code)
  end.

(** A sequence of calls: final renderer and everything written. *)
Fixpoint do_calls (r : renderer) (cs : list call) : renderer * list Z :=
  match cs with
  | [] => (r, [])
  | c :: rest =>
      let '(r1, o1) := do_call r c in
      let '(r2, o2) := do_calls r1 rest in
      (r2, o1 ++ o2)
  end.
