(** Model of style/: style.go, theme.go, internal/domain/value/{color,size,padding,margin,border,alignment}.go,
    internal/domain/service/{color_adapter,spacing_calculator,text_aligner}.go, internal/domain/model/{style,theme}.go,
    internal/application/command/{render,border_renderer}.go, internal/application/theme_manager.go,
    internal/infrastructure/ansi/code_generator.go. Texts are lists of runes; [sw] is core.StringWidth, a parameter.
    Simplifications: int does not wrap; an alignment or capability outside its named constants is left out (Go treats it as
    left, top, no colour); a byte slice that cuts a character leaves U+FFFD for the invalid bytes. *)
From Verif Require Import Prelude Utf8 Text.
From Verif Require LyModel.
Notation max_of := LyModel.max_of.

(* ---------- colours ---------- *)
(* value/color.go:12-20 *)
Record color := Rgb { cr : Z; cg : Z; cb : Z }.
Definition color_ok (c : color) : Prop := 0 <= cr c <= 255 /\ 0 <= cg c <= 255 /\ 0 <= cb c <= 255.
(* strconv.ParseUint(s, 16, 8) on two bytes *)
Definition hexval (b : Z) : option Z :=
  if (48 <=? b) && (b <=? 57) then Some (b - 48) else if (97 <=? b) && (b <=? 102) then Some (b - 87) else if (65 <=? b) && (b <=? 70) then Some (b - 55) else None.
Definition hexbyte (a b : Z) : option Z := match hexval a, hexval b with Some x, Some y => Some (16 * x + y) | _, _ => None end.
(* color.go:25-54, on the bytes of the string *)
Definition parse_hex (s : list Z) : option color :=
  let s := match s with 35 :: t => t | _ => s end in
  let six := match s with [a; b; c] => [a; a; b; b; c; c] | _ => s end in
  match six with
  | [a; b; c; d; e; f] => match hexbyte a b, hexbyte c d, hexbyte e f with Some r, Some g, Some bl => Some (Rgb r g bl) | _, _, _ => None end
  | _ => None
  end.
(* color.go:96-98 (%02X) *)
Definition hexdigit (v : Z) : Z := if v <? 10 then 48 + v else 55 + v.
Definition hex2 (v : Z) : list Z := [hexdigit (v / 16); hexdigit (v mod 16)].
Definition hex_of (c : color) : list Z := 35 :: hex2 (cr c) ++ hex2 (cg c) ++ hex2 (cb c).
(* color.go:114-145 and color_adapter.go:175-192 (the same table) *)
Definition levels : list Z := [0; 95; 135; 175; 215; 255].
Definition ansi16 : list color :=
  [Rgb 0 0 0; Rgb 128 0 0; Rgb 0 128 0; Rgb 128 128 0; Rgb 0 0 128; Rgb 128 0 128; Rgb 0 128 128; Rgb 192 192 192;
   Rgb 128 128 128; Rgb 255 0 0; Rgb 0 255 0; Rgb 255 255 0; Rgb 0 0 255; Rgb 255 0 255; Rgb 0 255 255; Rgb 255 255 255].
Definition black := Rgb 0 0 0.
Definition level (i : Z) : Z := nth (Z.to_nat i) levels 0.
(* color.go:59-88, for a code 0..255 *)
Definition from256 (code : Z) : color :=
  if code <? 16 then nth (Z.to_nat code) ansi16 black
  else if code <=? 231 then let i := code - 16 in Rgb (level ((i / 36) mod 6)) (level ((i / 6) mod 6)) (level (i mod 6))
  else let g := 8 + (code - 232) * 10 in Rgb g g g.
(* color_adapter.go:119-126 *)
Definition grayish (c : color) : bool :=
  let avg := (cr c + cg c + cb c) / 3 in (Z.abs (cr c - avg) <=? 10) && (Z.abs (cg c - avg) <=? 10) && (Z.abs (cb c - avg) <=? 10).
(* the two searches for the closest entry, color_adapter.go:134-146 and 195-207: index and distance of the first minimum below [d] *)
Fixpoint closest (dists : list Z) (i best d : Z) : Z := match dists with [] => best | x :: r => if x <? d then closest r (i + 1) i x else closest r (i + 1) best d end.
(* color_adapter.go:132-147 *)
Definition cube_index (v : Z) : Z := closest (map (fun l => Z.abs (v - l)) levels) 0 0 255.
(* color_adapter.go:88-116; uint8 arithmetic does not wrap here *)
Definition to256 (c : color) : Z :=
  if grayish c then let g := (cr c + cg c + cb c) / 3 in if g <? 8 then 16 else if 238 <? g then 231 else (g - 8) / 10 + 232
  else 16 + 36 * cube_index (cr c) + 6 * cube_index (cg c) + cube_index (cb c).
(* color_adapter.go:173-218; the float64 square roots of two integers below 2^18 compare as the integers do *)
Definition dist (a b : color) : Z := (cr a - cr b) * (cr a - cr b) + (cg a - cg b) * (cg a - cg b) + (cb a - cb b) * (cb a - cb b).
Definition to16 (c : color) : Z := closest (map (dist c) ansi16) 0 0 1000000.
(* border_renderer.go:259-283 *)
Definition border256 (c : color) : Z :=
  if (cr c =? cg c) && (cg c =? cb c) then if cr c <? 8 then 16 else if 247 <? cr c then 231 else 232 + (cr c - 8) / 10
  else 16 + 36 * (cr c * 6 / 256) + 6 * (cg c * 6 / 256) + cb c * 6 / 256.
(* border_renderer.go:287-317 *)
Definition border16 (c : color) : Z :=
  (if 128 <? cr c then 1 else 0) + (if 128 <? cg c then 2 else 0) + (if 128 <? cb c then 4 else 0) + (if 128 <? (cr c + cg c + cb c) / 3 then 8 else 0).
Inductive cap := NoColor | ANSI16 | ANSI256 | TrueColor.
(* code_generator.go:20-92 *)
Fixpoint semi (ps : list Z) : list Z := match ps with [] => [] | [p] => dec p | p :: r => dec p ++ 59 :: semi r end.
Definition csi_m (ps : list Z) : list Z := [27; 91] ++ semi ps ++ [109].
Definition reset : list Z := csi_m [0].
Definition fg16 (code : Z) : list Z := csi_m [if 8 <=? code then 90 + (code - 8) else 30 + code].
Definition bg16 (code : Z) : list Z := csi_m [if 8 <=? code then 100 + (code - 8) else 40 + code].
(* color_adapter.go:31-84, 151-169 *)
Definition to_fg (k : cap) (c : color) : list Z :=
  match k with NoColor => [] | ANSI16 => fg16 (to16 c) | ANSI256 => csi_m [38; 5; to256 c] | TrueColor => csi_m [38; 2; cr c; cg c; cb c] end.
Definition to_bg (k : cap) (c : color) : list Z :=
  match k with NoColor => [] | ANSI16 => bg16 (to16 c) | ANSI256 => csi_m [48; 5; to256 c] | TrueColor => csi_m [48; 2; cr c; cg c; cb c] end.
(* border_renderer.go:226-255 *)
Definition border_code (k : cap) (c : color) : list Z :=
  match k with NoColor => [] | ANSI16 => fg16 (border16 c) | ANSI256 => csi_m [38; 5; border256 c] | TrueColor => csi_m [38; 2; cr c; cg c; cb c] end.

(* ---------- styles ---------- *)
(* value/padding.go:9-23, margin.go *)
Record spacing := Sp { top : Z; right : Z; bottom : Z; left : Z }.
Definition new_spacing (t r b l : Z) : spacing := Sp (Z.max 0 t) (Z.max 0 r) (Z.max 0 b) (Z.max 0 l).
(* value/border.go:6-30 *)
Record border := Bd { bTop : list Z; bBottom : list Z; bLeft : list Z; bRight : list Z; bTL : list Z; bTR : list Z; bBL : list Z; bBR : list Z }.
(* value/size.go:8-15 *)
Record size := Size { width : option Z; height : option Z; minW : option Z; maxW : option Z; minH : option Z; maxH : option Z }.
Inductive halign := HLeft | HCenter | HRight.
Inductive valign := VTop | VMiddle | VBottom.
(* model/style.go:34-65 *)
Record style := Style { fg : option color; bg : option color; bord : option border; bcolor : option color;
  sTop : bool; sBottom : bool; sLeft : bool; sRight : bool; pad : option spacing; marg : option spacing; ssize : option size;
  salign : option (halign * valign); bold : bool; italic : bool; underline : bool; strike : bool; scap : cap }.
(* style.go:76-96 *)
Definition new_style : style := Style None None None None false false false false None None None None false false false false TrueColor.
(* style.go:102-476: the setters. PaddingTop etc. go through NewPadding on the other three sides *)
Inductive op :=
| Foreground (c : color) | Background (c : color) | Border (b : border) | BorderColor (c : color)
| BorderTop (v : bool) | BorderBottom (v : bool) | BorderLeft (v : bool) | BorderRight (v : bool)
| Padding (t r b l : Z) | PaddingTop (v : Z) | PaddingRight (v : Z) | PaddingBottom (v : Z) | PaddingLeft (v : Z) | PaddingHorizontal (v : Z) | PaddingVertical (v : Z)
| Margin (t r b l : Z) | MarginTop (v : Z) | MarginRight (v : Z) | MarginBottom (v : Z) | MarginLeft (v : Z) | MarginHorizontal (v : Z) | MarginVertical (v : Z)
| Width (v : Z) | Height (v : Z) | MaxWidth (v : Z) | MaxHeight (v : Z) | MinWidth (v : Z) | MinHeight (v : Z)
| Align (h : halign) (v : valign) | AlignHorizontal (h : halign) | AlignVertical (v : valign)
| Bold (v : bool) | Italic (v : bool) | Underline (v : bool) | Strikethrough (v : bool) | Capability (k : cap).
Definition sides (s : style) (t b l r : bool) : style := Style (fg s) (bg s) (bord s) (bcolor s) t b l r (pad s) (marg s) (ssize s) (salign s) (bold s) (italic s) (underline s) (strike s) (scap s).
Definition with_pad (s : style) (p : spacing) : style := Style (fg s) (bg s) (bord s) (bcolor s) (sTop s) (sBottom s) (sLeft s) (sRight s) (Some p) (marg s) (ssize s) (salign s) (bold s) (italic s) (underline s) (strike s) (scap s).
Definition with_marg (s : style) (p : spacing) : style := Style (fg s) (bg s) (bord s) (bcolor s) (sTop s) (sBottom s) (sLeft s) (sRight s) (pad s) (Some p) (ssize s) (salign s) (bold s) (italic s) (underline s) (strike s) (scap s).
Definition with_size (s : style) (z : size) : style := Style (fg s) (bg s) (bord s) (bcolor s) (sTop s) (sBottom s) (sLeft s) (sRight s) (pad s) (marg s) (Some z) (salign s) (bold s) (italic s) (underline s) (strike s) (scap s).
Definition with_align (s : style) (a : halign * valign) : style := Style (fg s) (bg s) (bord s) (bcolor s) (sTop s) (sBottom s) (sLeft s) (sRight s) (pad s) (marg s) (ssize s) (Some a) (bold s) (italic s) (underline s) (strike s) (scap s).
Definition with_deco (s : style) (b i u k : bool) : style := Style (fg s) (bg s) (bord s) (bcolor s) (sTop s) (sBottom s) (sLeft s) (sRight s) (pad s) (marg s) (ssize s) (salign s) b i u k (scap s).
Definition with_colors (s : style) (f b c : option color) (k : cap) : style := Style f b (bord s) c (sTop s) (sBottom s) (sLeft s) (sRight s) (pad s) (marg s) (ssize s) (salign s) (bold s) (italic s) (underline s) (strike s) k.
Definition sp0 (p : option spacing) : spacing := match p with Some p => p | None => Sp 0 0 0 0 end.
Definition sz0 (z : option size) : size := match z with Some z => z | None => Size None None None None None None end.
Definition nn (v : Z) : option Z := Some (Z.max 0 v).
Definition step (s : style) (o : op) : style :=
  let p := sp0 (pad s) in let m := sp0 (marg s) in let z := sz0 (ssize s) in
  match o with
  | Foreground c => with_colors s (Some c) (bg s) (bcolor s) (scap s)
  | Background c => with_colors s (fg s) (Some c) (bcolor s) (scap s)
  | BorderColor c => with_colors s (fg s) (bg s) (Some c) (scap s)
  | Capability k => with_colors s (fg s) (bg s) (bcolor s) k
  | Border b => let none := negb (sTop s) && negb (sBottom s) && negb (sLeft s) && negb (sRight s) in
      Style (fg s) (bg s) (Some b) (bcolor s) (none || sTop s) (none || sBottom s) (none || sLeft s) (none || sRight s) (pad s) (marg s) (ssize s) (salign s) (bold s) (italic s) (underline s) (strike s) (scap s)
  | BorderTop v => sides s v (sBottom s) (sLeft s) (sRight s)
  | BorderBottom v => sides s (sTop s) v (sLeft s) (sRight s)
  | BorderLeft v => sides s (sTop s) (sBottom s) v (sRight s)
  | BorderRight v => sides s (sTop s) (sBottom s) (sLeft s) v
  | Padding t r b l => with_pad s (new_spacing t r b l)
  | PaddingTop v => with_pad s (new_spacing v (right p) (bottom p) (left p))
  | PaddingRight v => with_pad s (new_spacing (top p) v (bottom p) (left p))
  | PaddingBottom v => with_pad s (new_spacing (top p) (right p) v (left p))
  | PaddingLeft v => with_pad s (new_spacing (top p) (right p) (bottom p) v)
  | PaddingHorizontal v => with_pad s (new_spacing (top p) v (bottom p) v)
  | PaddingVertical v => with_pad s (new_spacing v (right p) v (left p))
  | Margin t r b l => with_marg s (new_spacing t r b l)
  | MarginTop v => with_marg s (new_spacing v (right m) (bottom m) (left m))
  | MarginRight v => with_marg s (new_spacing (top m) v (bottom m) (left m))
  | MarginBottom v => with_marg s (new_spacing (top m) (right m) v (left m))
  | MarginLeft v => with_marg s (new_spacing (top m) (right m) (bottom m) v)
  | MarginHorizontal v => with_marg s (new_spacing (top m) v (bottom m) v)
  | MarginVertical v => with_marg s (new_spacing v (right m) v (left m))
  | Width v => with_size s (Size (nn v) (height z) (minW z) (maxW z) (minH z) (maxH z))
  | Height v => with_size s (Size (width z) (nn v) (minW z) (maxW z) (minH z) (maxH z))
  | MinWidth v => with_size s (Size (width z) (height z) (nn v) (maxW z) (minH z) (maxH z))
  | MaxWidth v => with_size s (Size (width z) (height z) (minW z) (nn v) (minH z) (maxH z))
  | MinHeight v => with_size s (Size (width z) (height z) (minW z) (maxW z) (nn v) (maxH z))
  | MaxHeight v => with_size s (Size (width z) (height z) (minW z) (maxW z) (minH z) (nn v))
  | Align h v => with_align s (h, v)
  | AlignHorizontal h => with_align s (h, match salign s with Some (_, v) => v | None => VTop end)
  | AlignVertical v => with_align s (match salign s with Some (h, _) => h | None => HLeft end, v)
  | Bold v => with_deco s v (italic s) (underline s) (strike s)
  | Italic v => with_deco s (bold s) v (underline s) (strike s)
  | Underline v => with_deco s (bold s) (italic s) v (strike s)
  | Strikethrough v => with_deco s (bold s) (italic s) (underline s) v
  end.
Definition styled (os : list op) : style := fold_left step os new_style.
(* style.go:517-534 *)
Definition has (s : style) (v : bool) : bool := v && match bord s with Some _ => true | None => false end.
(* style.go:601-626; paddings and margins are never negative *)
Definition valid (s : style) : bool := negb ((sTop s || sBottom s || sLeft s || sRight s) && match bord s with None => true | _ => false end).

Section Width.
Variable sw : list Z -> Z.
(* spacing_calculator.go:58-100 and 107-148 (the same code for padding and margin) *)
Definition apply_spacing (c : list Z) (p : spacing) : list Z :=
  match c with [] => [] | _ =>
    let ls := map (fun l => rep 32 (left p) ++ l ++ rep 32 (right p)) (split_nl c) in
    let e := rep 32 (match ls with l :: _ => sw l | [] => left p + right p end) in
    join_nl (repeat e (Z.to_nat (top p)) ++ ls ++ repeat e (Z.to_nat (bottom p)))
  end.
(* text_aligner.go:38-74 *)
Definition align_h (t : list Z) (w : Z) (h : halign) : list Z :=
  let tw := sw t in
  if w <? tw then runes_of (firstn (Z.to_nat w) (enc t))
  else if tw =? w then t
  else let n := w - tw in
       match h with
       | HLeft => t ++ rep 32 n
       | HCenter => let l := (n + 1) / 2 in rep 32 l ++ t ++ rep 32 (n - l)
       | HRight => rep 32 n ++ t
       end.
(* text_aligner.go:80-157; height is positive where it is called *)
Definition align_v (t : list Z) (h : Z) (v : valign) : list Z :=
  let ls := split_nl t in let k := Z.of_nat (length ls) in
  if h <? k then join_nl (firstn (Z.to_nat h) ls)
  else if k =? h then t
  else let n := h - k in let e := rep 32 (max_of sw ls) in
       match v with
       | VTop => join_nl (ls ++ repeat e (Z.to_nat n))
       | VMiddle => let a := (n + 1) / 2 in join_nl (repeat e (Z.to_nat a) ++ ls ++ repeat e (Z.to_nat (n - a)))
       | VBottom => join_nl (repeat e (Z.to_nat n) ++ ls)
       end.
(* text_aligner.go:161-173 *)
Definition align_both (t : list Z) (w h : Z) (a : halign * valign) : list Z :=
  align_v (join_nl (map (fun l => align_h l w (fst a)) (split_nl t))) h (snd a).

(* border_renderer.go:166-177 *)
Definition color_line (s : style) (l : list Z) : list Z := match bcolor s with None => l | Some c => border_code (scap s) c ++ l ++ reset end.
(* border_renderer.go:181-223 *)
Definition color_sides (s : style) (hl hr : bool) (l : list Z) : list Z :=
  match bcolor s with
  | None => l
  | Some c => if negb hl && negb hr then l else
      let a := border_code (scap s) c in
      let '(pre, rs) := match hl, l with true, x :: t => (a ++ [x] ++ reset, t) | _, _ => ([], l) end in
      pre ++ (match hr, rs with true, _ :: _ => removelast rs ++ a ++ [last rs 0] ++ reset | _, _ => rs end)
  end.
Definition side (v : bool) (x : list Z) : list Z := if v then x else [].
Fixpoint repeat_str (x : list Z) (n : nat) : list Z := match n with O => [] | S n => x ++ repeat_str x n end.
(* border_renderer.go:30-81, 96-163 *)
Definition border_lines (s : style) (b : border) (ls : list (list Z)) : list (list Z) :=
  let hl := has s (sLeft s) in let hr := has s (sRight s) in
  let w := max_of sw ls in
  (if has s (sTop s) then [color_line s (side hl (bTL b) ++ repeat_str (bTop b) (Z.to_nat w) ++ side hr (bTR b))] else []) ++
  map (fun l => color_sides s hl hr (side hl (bLeft b) ++ (l ++ rep 32 (Z.max 0 (w - sw l))) ++ side hr (bRight b))) ls ++
  (if has s (sBottom s) then [color_line s (side hl (bBL b) ++ repeat_str (bBottom b) (Z.to_nat w) ++ side hr (bBR b))] else []).
Definition render_border (s : style) (c : list Z) : list Z :=
  match bord s with
  | None => c
  | Some b => if negb (has s (sTop s)) && negb (has s (sBottom s)) && negb (has s (sLeft s)) && negb (has s (sRight s)) then c
              else join_nl (border_lines s b (split_nl c))
  end.
(* render.go:196-226 *)
Definition apply_colors (s : style) (c : list Z) : list Z :=
  let codes := match fg s with Some f => to_fg (scap s) f | None => [] end ++ match bg s with Some f => to_bg (scap s) f | None => [] end in
  match codes with [] => c | _ => codes ++ c ++ reset end.
(* render.go:229-255 *)
Definition apply_deco (s : style) (c : list Z) : list Z :=
  let codes := (if bold s then csi_m [1] else []) ++ (if italic s then csi_m [3] else []) ++ (if underline s then csi_m [4] else []) ++ (if strike s then csi_m [9] else []) in
  match codes with [] => c | _ => codes ++ c ++ reset end.
Definition below (a b : option Z) (v : Z) : bool := match a with Some m => v <? m | None => false end || match b with Some m => m <? v | None => false end.
(* render.go:73-98, 146-193 *)
Definition outer_size (s : style) (c : list Z) : Z * Z :=
  let ls := split_nl c in let p := sp0 (pad s) in let m := sp0 (marg s) in
  (max_of sw ls + (left p + right p) + (if has s (sLeft s) || has s (sRight s) then 2 else 0) + (left m + right m),
   Z.of_nat (length ls) + (top p + bottom p) + (if has s (sTop s) || has s (sBottom s) then 2 else 0) + (top m + bottom m)).
Definition size_violated (s : style) (c : list Z) : bool :=
  match ssize s with None => false | Some z => let '(w, h) := outer_size s c in below (minW z) (maxW z) w || below (minH z) (maxH z) h end.
Definition target (z : option size) : Z * Z := match z with None => (0, 0) | Some z => (match width z with Some w => w | None => 0 end, match height z with Some h => h | None => 0 end) end.
(* render.go:111-119 *)
Definition apply_align (s : style) (c : list Z) : list Z :=
  match salign s with
  | None => c
  | Some (h, v) => let '(tw, th) := target (ssize s) in
      if (0 <? tw) && (0 <? th) then align_both c tw th (h, v) else if 0 <? tw then align_h c tw h else if 0 <? th then align_v c th v else c
  end.
Definition apply_opt (c : list Z) (p : option spacing) : list Z := match p with Some p => apply_spacing c p | None => c end.
(* the text before colours and decorations: render.go:111-134 *)
Definition laid_out (s : style) (c : list Z) : list Z := apply_opt (render_border s (apply_opt (apply_align s c) (pad s))) (marg s).
(* render.go:60-143; None is an error *)
Definition execute (s : style) (c : list Z) : option (list Z) :=
  if negb (valid s) then None else if size_violated s c then None else Some (apply_deco s (apply_colors s (laid_out s c))).
(* style/style.go:257-281 *)
Definition render (s : style) (c : list Z) : list Z := match execute s c with Some o => o | None => c end.
End Width.

(* ---------- themes ---------- *)
(* theme.go:22-113; colours, borders and spacings in the order of their fields *)
Record theme := Theme { tname : list Z; tcolors : list color; tborders : list border; tspacing : list Z; ttypo : list color }.
Definition ceq (a b : color) : bool := (cr a =? cr b) && (cg a =? cg b) && (cb a =? cb b).
Definition nilb (x : list Z) : bool := match x with [] => true | _ => false end.
(* border.go:129-138 *)
Definition hidden (b : border) : bool := nilb (bTop b) && nilb (bBottom b) && nilb (bLeft b) && nilb (bRight b) && nilb (bTL b) && nilb (bTR b) && nilb (bBL b) && nilb (bBR b).
Fixpoint merge_by {A} (unset : A -> bool) (base over : list A) : list A :=
  match base, over with b :: bs, o :: os => (if unset o then b else o) :: merge_by unset bs os | _, _ => [] end.
(* theme.go:225-353: all fields in turn *)
Definition merge (t o : theme) : theme :=
  Theme (tname o) (merge_by (fun c => ceq c black) (tcolors t) (tcolors o)) (merge_by hidden (tborders t) (tborders o))
        (merge_by (fun v => v <=? 0) (tspacing t) (tspacing o)) (merge_by (fun c => ceq c black) (ttypo t) (ttypo o)).
Definition theme_ok (t : theme) : Prop := length (tcolors t) = 13%nat /\ length (tborders t) = 5%nat /\ length (tspacing t) = 5%nat /\ length (ttypo t) = 4%nat.
(* value/border.go:37-112 *)
Definition rounded : border := Bd [9472] [9472] [9474] [9474] [9581] [9582] [9584] [9583].
Definition thick : border := Bd [9473] [9473] [9475] [9475] [9487] [9491] [9495] [9499].
Definition double : border := Bd [9552] [9552] [9553] [9553] [9556] [9559] [9562] [9565].
Definition normal : border := Bd [9472] [9472] [9474] [9474] [9484] [9488] [9492] [9496].
Definition hidden_border : border := Bd [] [] [] [] [] [] [] [].
Definition ascii_border : border := Bd [45] [45] [124] [124] [43] [43] [43] [43].
(* theme_presets.go:11-193 *)
Definition default_theme : theme := Theme [68; 101; 102; 97; 117; 108; 116]
  [Rgb 59 130 246; Rgb 139 92 246; Rgb 0 0 0; Rgb 30 30 30; Rgb 255 255 255; Rgb 156 163 175; Rgb 239 68 68; Rgb 245 158 11; Rgb 34 197 94; Rgb 59 130 246; Rgb 75 85 99; Rgb 96 165 250; Rgb 107 114 128]
  [rounded; rounded; thick; normal; rounded] [2; 4; 8; 12; 16] [Rgb 107 114 128; Rgb 236 72 153; Rgb 96 165 250; Rgb 255 255 255].
Definition dark_theme : theme := Theme [68; 97; 114; 107]
  [Rgb 96 165 250; Rgb 167 139 250; Rgb 0 0 0; Rgb 17 24 39; Rgb 229 231 235; Rgb 107 114 128; Rgb 248 113 113; Rgb 251 191 36; Rgb 74 222 128; Rgb 96 165 250; Rgb 55 65 81; Rgb 147 197 253; Rgb 75 85 99]
  [rounded; rounded; double; normal; rounded] [2; 4; 8; 12; 16] [Rgb 75 85 99; Rgb 249 168 212; Rgb 147 197 253; Rgb 243 244 246].
Definition light_theme : theme := Theme [76; 105; 103; 104; 116]
  [Rgb 37 99 235; Rgb 124 58 237; Rgb 255 255 255; Rgb 249 250 251; Rgb 17 24 39; Rgb 107 114 128; Rgb 220 38 38; Rgb 217 119 6; Rgb 22 163 74; Rgb 37 99 235; Rgb 209 213 219; Rgb 59 130 246; Rgb 156 163 175]
  [normal; normal; thick; normal; normal] [2; 4; 8; 12; 16] [Rgb 156 163 175; Rgb 219 39 119; Rgb 37 99 235; Rgb 17 24 39].
Definition contrast_theme : theme := Theme [72; 105; 103; 104; 67; 111; 110; 116; 114; 97; 115; 116]
  [Rgb 0 0 255; Rgb 255 0 255; Rgb 0 0 0; Rgb 0 0 0; Rgb 255 255 255; Rgb 192 192 192; Rgb 255 0 0; Rgb 255 255 0; Rgb 0 255 0; Rgb 0 255 255; Rgb 255 255 255; Rgb 255 255 0; Rgb 128 128 128]
  [double; double; thick; double; double] [2; 6; 10; 14; 20] [Rgb 192 192 192; Rgb 255 0 255; Rgb 0 255 255; Rgb 255 255 255].
(* theme_presets.go:197-204 *)
Definition presets : list theme := [default_theme; dark_theme; light_theme; contrast_theme].
(* theme_presets.go:216-224 *)
Definition lower (s : list Z) : list Z := map (fun c => if (65 <=? c) && (c <=? 90) then c + 32 else c) s.
(* theme_presets.go:208-231: the keys of the map *)
Definition preset_keys : list (list Z * theme) :=
  [([100; 101; 102; 97; 117; 108; 116], default_theme); ([100; 97; 114; 107], dark_theme); ([108; 105; 103; 104; 116], light_theme); ([104; 105; 103; 104; 99; 111; 110; 116; 114; 97; 115; 116], contrast_theme)].
Definition preset_by_name (name : list Z) : option theme := option_map snd (find (fun p => list_eqb (fst p) (lower name)) preset_keys).
(* application/theme_manager.go:22-87: every call is one critical section of the manager's mutex. A nil theme for MergeTheme (a nil dereference) is left out *)
Inductive tcall := SetTheme (t : option theme) | SetPreset (name : list Z) | MergeTheme (t : theme) | ResetTheme | Current.
Inductive tres := RTheme (t : theme) | RBool (b : bool) | RNone.
Definition new_manager (t : option theme) : theme := match t with Some t => t | None => default_theme end.
Definition manage (cur : theme) (c : tcall) : theme * tres :=
  match c with
  | SetTheme None => (cur, RTheme cur)
  | SetTheme (Some t) => (t, RTheme cur)
  | SetPreset n => match preset_by_name n with Some t => (t, RBool true) | None => (cur, RBool false) end
  | MergeTheme o => (merge cur o, RNone)
  | ResetTheme => (default_theme, RNone)
  | Current => (cur, RTheme cur)
  end.
