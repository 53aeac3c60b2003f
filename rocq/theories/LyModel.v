(** Model of layout/: layout.go, internal/domain/model/{box,flexbox}.go, internal/domain/value/{size,spacing,alignment,position}.go,
    internal/domain/service/{measure_service,render_service,layout_service,flexbox_layout_service}.go.
    Texts are lists of runes; [blen] is Go's len of the UTF-8 string. [sw] is core.StringWidth (an external Unicode table), a
    parameter. Simplifications: integers do not wrap; a Node is its box and position (LayoutNode and node trees, which layout.go
    never builds, are left out); the fluent setters that mutate a *Box are functions to a new box. *)
From Verif Require Import Prelude Utf8 Text.

(* value/size.go:27-34; -1 = not set *)
Record size := Size { sw_ : Z; sh_ : Z; minw : Z; maxw : Z; minh : Z; maxh : Z }.
(* size.go:49-86; None is the panic *)
Definition neg1 (v : Z) : Z := if v <? 0 then -1 else v.
Definition new_size (w h mnw mxw mnh mxh : Z) : option size :=
  let w := neg1 w in let h := neg1 h in let mnw := neg1 mnw in let mxw := neg1 mxw in let mnh := neg1 mnh in let mxh := neg1 mxh in
  if negb (mnw =? -1) && negb (mxw =? -1) && (mxw <? mnw) then None
  else if negb (mnh =? -1) && negb (mxh =? -1) && (mxh <? mnh) then None
  else Some (Size w h mnw mxw mnh mxh).
(* size.go:94-102; never panics *)
Definition size_exact (w h : Z) : size := Size (neg1 w) (neg1 h) (-1) (-1) (-1) (-1).
Definition size_any : size := size_exact (-1) (-1).
(* size.go:172-199 *)
Inductive sop := SWidth (v : Z) | SHeight (v : Z) | SMinW (v : Z) | SMaxW (v : Z) | SMinH (v : Z) | SMaxH (v : Z).
Definition with_size_op (s : size) (o : sop) : option size :=
  match o with
  | SWidth v => new_size v (sh_ s) (minw s) (maxw s) (minh s) (maxh s)
  | SHeight v => new_size (sw_ s) v (minw s) (maxw s) (minh s) (maxh s)
  | SMinW v => new_size (sw_ s) (sh_ s) v (maxw s) (minh s) (maxh s)
  | SMaxW v => new_size (sw_ s) (sh_ s) (minw s) v (minh s) (maxh s)
  | SMinH v => new_size (sw_ s) (sh_ s) (minw s) (maxw s) v (maxh s)
  | SMaxH v => new_size (sw_ s) (sh_ s) (minw s) (maxw s) (minh s) v
  end.
(* size.go:215-241 *)
Definition constrain1 (exact mn mx v : Z) : Z :=
  if negb (exact =? -1) then exact
  else let v := if negb (mn =? -1) && (v <? mn) then mn else v in
       if negb (mx =? -1) && (mx <? v) then mx else v.
Definition constrain (s : size) (w h : Z) : Z * Z := (constrain1 (sw_ s) (minw s) (maxw s) w, constrain1 (sh_ s) (minh s) (maxh s) h).

(* value/spacing.go:34-54, 121-128 *)
Record spacing := Sp { top : Z; right : Z; bottom : Z; left : Z }.
Definition new_spacing (t r b l : Z) : spacing := Sp (Z.max 0 t) (Z.max 0 r) (Z.max 0 b) (Z.max 0 l).
Definition horiz (s : spacing) : Z := left s + right s.
Definition vert (s : spacing) : Z := top s + bottom s.

(* value/alignment.go:6-41 *)
Inductive halign := HLeft | HCenter | HRight.
Inductive valign := VTop | VMiddle | VBottom.
(* alignment.go:176-210 *)
Definition hoffset (h : halign) (content container : Z) : Z :=
  if container <=? content then 0 else match h with HLeft => 0 | HCenter => Z.quot (container - content) 2 | HRight => container - content end.
Definition voffset (v : valign) (content container : Z) : Z :=
  if container <=? content then 0 else match v with VTop => 0 | VMiddle => Z.quot (container - content) 2 | VBottom => container - content end.

(* model/box.go:49-56 *)
Record box := Box { content : list Z; padding : spacing; margin : spacing; border : bool; bsize : size; bhal : halign; bval : valign }.
(* box.go:71-83; the empty content panics *)
Definition new_box (c : list Z) : option box :=
  match c with [] => None | _ => Some (Box c (Sp 0 0 0 0) (Sp 0 0 0 0) false size_any HLeft VTop) end.
(* layout.go:144-383: the setters; those of the size can panic *)
Inductive bop := BSize (o : sop) | BPadding (t r b l : Z) | BMargin (t r b l : Z) | BBorder (v : bool) | BAlign (h : halign) (v : valign).
Definition bstep (x : box) (o : bop) : option box :=
  match o with
  | BSize o => match with_size_op (bsize x) o with Some s => Some (Box (content x) (padding x) (margin x) (border x) s (bhal x) (bval x)) | None => None end
  | BPadding t r b l => Some (Box (content x) (new_spacing t r b l) (margin x) (border x) (bsize x) (bhal x) (bval x))
  | BMargin t r b l => Some (Box (content x) (padding x) (new_spacing t r b l) (border x) (bsize x) (bhal x) (bval x))
  | BBorder v => Some (Box (content x) (padding x) (margin x) v (bsize x) (bhal x) (bval x))
  | BAlign h v => Some (Box (content x) (padding x) (margin x) (border x) (bsize x) h v)
  end.
Fixpoint bsteps (x : box) (os : list bop) : option box := match os with [] => Some x | o :: r => match bstep x o with Some y => bsteps y r | None => None end end.
Definition set_size (x : box) (s : size) : box := Box (content x) (padding x) (margin x) (border x) s (bhal x) (bval x).

Section Width.
Variable sw : list Z -> Z.
Definition max_of (f : list Z -> Z) (ls : list (list Z)) : Z := fold_left (fun m l => if m <? f l then f l else m) ls 0.
(* measure_service.go:116-135 *)
Definition measure_content (c : list Z) : Z * Z :=
  match c with [] => (0, 0) | _ => (max_of sw (split_nl c), Z.of_nat (length (split_nl c))) end.
(* measure_service.go:73-108 *)
Definition measure (b : box) : Z * Z :=
  let '(cw, ch) := measure_content (content b) in
  let ph := horiz (padding b) + (if border b then 2 else 0) in
  let pv := vert (padding b) + (if border b then 2 else 0) in
  let w := cw + ph + (if border b then 2 else 0) in
  let h := ch + pv + (if border b then 2 else 0) in
  let w := w + horiz (margin b) in let h := h + vert (margin b) in
  let '(w, h) := constrain (bsize b) w h in
  let s := size_exact w h in (sw_ s, sh_ s).

(* render_service.go:211-219 *)
Definition content_width (ls : list (list Z)) : Z := max_of blen ls.
(* render_service.go:76-192 *)
Definition render_lines (b : box) : list (list Z) :=
  let cls := split_nl (content b) in
  let cw := content_width cls in
  let pl := left (padding b) + (if border b then 1 else 0) in
  let pr := right (padding b) + (if border b then 1 else 0) in
  let inner := cw + pl + pr in
  let total := inner + (if border b then 2 else 0) in
  let ml := rep 32 (left (margin b)) in let mr := rep 32 (right (margin b)) in
  let bar := if border b then [9474] else [] in
  let blank := rep 32 (total + horiz (margin b)) in
  let padline := ml ++ bar ++ rep 32 inner ++ bar ++ mr in
  repeat blank (Z.to_nat (top (margin b))) ++
  (if border b then [ml ++ [9484] ++ rep 9472 inner ++ [9488] ++ mr] else []) ++
  repeat padline (Z.to_nat (top (padding b))) ++
  map (fun cl => ml ++ bar ++ rep 32 pl ++ cl ++ (if border b then rep 32 (cw - blen cl) ++ rep 32 pr else rep 32 pr) ++ bar ++ mr) cls ++
  repeat padline (Z.to_nat (bottom (padding b))) ++
  (if border b then [ml ++ [9492] ++ rep 9472 inner ++ [9496] ++ mr] else []) ++
  repeat blank (Z.to_nat (bottom (margin b))).
Definition render (b : box) : list Z := join_nl (render_lines b).
(* layout.go:401-414: the output and the box afterwards *)
Definition box_render (b : box) : box * list Z :=
  let '(w, h) := measure b in let b' := set_size b (size_exact w h) in (b', render b').
(* layout_service.go:72-85, position.go:38-46, layout.go:440-448 *)
Definition box_layout (b : box) (pw ph : Z) : Z * Z :=
  let '(w, h) := measure b in
  let x := hoffset (bhal b) w (neg1 pw) in let y := voffset (bval b) h (neg1 ph) in
  (if x <? 0 then 0 else x, if y <? 0 then 0 else y).

(* ---------- flexbox ---------- *)
Inductive justify := JStart | JEnd | JCenter | JBetween.
Inductive align := AStretch | AStart | AEnd | ACenter.
(* model/flexbox.go:34-41; the container's own size is stored but read by nothing *)
Record flex := Flex { horizontal : bool; fjust : justify; falign : align; fgap : Z; items : list box }.
Definition new_flex (h : bool) : flex := Flex h JStart AStretch 0 [].
Definition add_item (f : flex) (b : box) : flex := Flex (horizontal f) (fjust f) (falign f) (fgap f) (items f ++ [b]).
(* flexbox.go:150-158; a negative gap panics *)
Definition with_gap (f : flex) (g : Z) : option flex := if g <? 0 then None else Some (Flex (horizontal f) (fjust f) (falign f) g (items f)).
(* flexbox.go:244-249 *)
Definition total_gap (gap : Z) (n : nat) : Z := if (n <=? 1)%nat then 0 else gap * (Z.of_nat n - 1).
(* the accumulation of flexbox_layout_service.go:165-173 (and the three like it): each item at [pos], then [pos] advances *)
Fixpoint place (pos step : Z) (sizes : list Z) : list Z := match sizes with [] => [] | s :: r => pos :: place (pos + s + step) step r end.
(* flexbox_layout_service.go:120-223; [sizes] are the items' sizes along the main axis *)
Definition main_positions (j : justify) (gap : Z) (sizes : list Z) (container : Z) : list Z :=
  let total := fold_left Z.add sizes 0 + total_gap gap (length sizes) in
  let rem := container - total in let rem := if rem <? 0 then 0 else rem in
  match j with
  | JStart => place 0 gap sizes
  | JEnd => place rem gap sizes
  | JCenter => place (Z.quot rem 2) gap sizes
  | JBetween => match sizes with [] => [] | [_] => [0] | _ => place 0 (gap + Z.quot rem (Z.of_nat (length sizes) - 1)) sizes end
  end.
(* flexbox_layout_service.go:227-281 *)
Definition cross_position (a : align) (s container : Z) : Z :=
  let p := match a with AStart => 0 | AEnd => container - s | ACenter => Z.quot (container - s) 2 | AStretch => 0 end in
  if p <? 0 then 0 else p.
(* flexbox_layout_service.go:50-102: items with their positions (value.NewPosition clamps at 0) *)
Definition flex_layout (f : flex) (w h : Z) : list (box * (Z * Z)) :=
  let ms := map measure (items f) in
  let mains := main_positions (fjust f) (fgap f) (map (if horizontal f then fst else snd) ms) (if horizontal f then w else h) in
  let crosses := map (fun s => cross_position (falign f) s (if horizontal f then h else w)) (map (if horizontal f then snd else fst) ms) in
  combine (items f) (map (fun '(m, c) => let '(x, y) := if horizontal f then (m, c) else (c, m) in (Z.max 0 x, Z.max 0 y)) (combine mains crosses)).
(* layout.go:790-797: one line of an item, from column [x], into a row; the text beyond the container's width is dropped *)
Definition paint_row (row : list Z) (x : nat) (w : nat) (l : list Z) : list Z :=
  firstn x row ++ firstn (w - x) l ++ skipn (x + length (firstn (w - x) l)) row.
(* layout.go:784-798 *)
Fixpoint paint_lines (g : list (list Z)) (y x w : nat) (ls : list (list Z)) : list (list Z) :=
  match ls with
  | [] => g
  | l :: r => match nth_error g y with
              | Some row => paint_lines (set_nth g y (if (x <? w)%nat then paint_row row x w l else row)) (S y) x w r
              | None => g
              end
  end.
(* layout.go:757-810; None is the panic of make with a negative size *)
Definition flex_grid (f : flex) (w h : Z) : option (list (list Z)) :=
  if (h <? 0) || ((0 <? h) && (w <? 0)) then None
  else let g0 := repeat (rep 32 w) (Z.to_nat h) in
       Some (fold_left (fun g '(b, (x, y)) => paint_lines g (Z.to_nat y) (Z.to_nat x) (Z.to_nat w) (split_nl (render b))) (flex_layout f w h) g0).
Definition flex_render (f : flex) (w h : Z) : option (list Z) := match flex_grid f w h with Some g => Some (join_nl g) | None => None end.
End Width.
