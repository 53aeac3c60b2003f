(** Specification device, not a model of /repo code: a small VT100/xterm screen
    emulator that interprets the bytes (as code points) a program writes.  It is the
    observer against which the renderers are specified.

    Simplifications: output is a list of code points (UTF-8 is assumed transparent),
    tabs/scroll regions/character sets are not interpreted, unknown sequences are
    ignored, autowrap is always on with the usual "pending wrap" state. *)
From Verif Require Import Prelude.

Inductive tcolor := Rgb (r g b : Z) | Idx (n : Z).

(** Graphic rendition of a screen cell. *)
Record pen := Pen {
  p_fg : option tcolor; p_bg : option tcolor;
  p_bold : bool; p_dim : bool; p_italic : bool; p_underline : bool;
  p_blink : bool; p_reverse : bool; p_hidden : bool; p_strike : bool }.

Definition pen0 : pen := Pen None None false false false false false false false false.

Inductive ckind := Single | Lead | Trail.
Record tcell := TCell { tch : Z; tpen : pen; tkind : ckind }.

Inductive pstate :=
| Ground
| Esc                                   (* after ESC *)
| Csi (done : list Z) (cur : Z) (priv : bool)  (* done: finished parameters, reversed *)
| Osc.                                  (* ESC ] ... until BEL or ESC *)

Record term := Term {
  tw : Z; th : Z;                        (* screen size *)
  bce : bool;                            (* does erasing keep the background colour? *)
  grid : Z -> Z -> tcell;                (* column, row *)
  cx : Z; cy : Z; pend : bool;           (* cursor and pending-wrap flag *)
  tpn : pen;                             (* current rendition *)
  pst : pstate;
  curvis : bool; alt : bool; saved : Z * Z }.

Definition set_grid t g := Term (tw t) (th t) (bce t) g (cx t) (cy t) (pend t) (tpn t) (pst t) (curvis t) (alt t) (saved t).
Definition set_cur t x y p := Term (tw t) (th t) (bce t) (grid t) x y p (tpn t) (pst t) (curvis t) (alt t) (saved t).
Definition set_pen t p := Term (tw t) (th t) (bce t) (grid t) (cx t) (cy t) (pend t) p (pst t) (curvis t) (alt t) (saved t).
Definition set_pst t s := Term (tw t) (th t) (bce t) (grid t) (cx t) (cy t) (pend t) (tpn t) s (curvis t) (alt t) (saved t).
Definition set_vis t v := Term (tw t) (th t) (bce t) (grid t) (cx t) (cy t) (pend t) (tpn t) (pst t) v (alt t) (saved t).
Definition set_alt t v := Term (tw t) (th t) (bce t) (grid t) (cx t) (cy t) (pend t) (tpn t) (pst t) (curvis t) v (saved t).
Definition set_saved t v := Term (tw t) (th t) (bce t) (grid t) (cx t) (cy t) (pend t) (tpn t) (pst t) (curvis t) (alt t) v.

Definition erased (t : term) : tcell :=
  TCell 32 (if bce t then Pen None (p_bg (tpn t)) false false false false false false false false
            else pen0) Single.

Definition gset (g : Z -> Z -> tcell) (x y : Z) (c : tcell) : Z -> Z -> tcell :=
  fun x' y' => if (x' =? x) && (y' =? y) then c else g x' y'.

(** Erase a set of positions. *)
Definition erase_where (t : term) (sel : Z -> Z -> bool) : term :=
  set_grid t (fun x y => if sel x y then erased t else grid t x y).

(** Move down one row, scrolling at the bottom. *)
Definition line_feed (t : term) : term :=
  if cy t + 1 <? th t then set_cur t (cx t) (cy t + 1) false
  else set_cur (set_grid t (fun x y => if y =? th t - 1 then erased t else grid t x (y + 1)))
               (cx t) (cy t) false.

(** Overwriting half of a wide character blanks the other half. *)
Definition break_wide (g : Z -> Z -> tcell) (x y : Z) : Z -> Z -> tcell :=
  match tkind (g x y) with
  | Single => g
  | Lead => gset g (x + 1) y (TCell 32 (tpen (g x y)) Single)
  | Trail => gset g (x - 1) y (TCell 32 (tpen (g x y)) Single)
  end.

Section WithWidth.
(** Columns the terminal uses for a code point. *)
Variable cw : Z -> Z.

Definition put (c : Z) (t : term) : term :=
  if cw c <=? 0 then t else
  let t1 := if pend t || (tw t <? cx t + cw c)
            then line_feed (set_cur t 0 (cy t) false) else t in
  let g0 := break_wide (grid t1) (cx t1) (cy t1) in
  let g1 := if cw c =? 1 then gset g0 (cx t1) (cy t1) (TCell c (tpn t1) Single)
            else gset (gset (break_wide g0 (cx t1 + 1) (cy t1))
                            (cx t1) (cy t1) (TCell c (tpn t1) Lead))
                      (cx t1 + 1) (cy t1) (TCell 32 (tpn t1) Trail) in
  let t2 := set_grid t1 g1 in
  if cx t1 + cw c <? tw t then set_cur t2 (cx t1 + cw c) (cy t1) false
  else set_cur t2 (tw t - 1) (cy t1) true.

(** Select Graphic Rendition. [fuel] is the number of parameters. *)
Fixpoint sgr (ps : list Z) (p : pen) {struct ps} : pen :=
  match ps with
  | [] => p
  | 38 :: 2 :: r :: g :: b :: ps' => sgr ps' (Pen (Some (Rgb r g b)) (p_bg p) (p_bold p) (p_dim p) (p_italic p) (p_underline p) (p_blink p) (p_reverse p) (p_hidden p) (p_strike p))
  | 48 :: 2 :: r :: g :: b :: ps' => sgr ps' (Pen (p_fg p) (Some (Rgb r g b)) (p_bold p) (p_dim p) (p_italic p) (p_underline p) (p_blink p) (p_reverse p) (p_hidden p) (p_strike p))
  | 38 :: 5 :: n :: ps' => sgr ps' (Pen (Some (Idx n)) (p_bg p) (p_bold p) (p_dim p) (p_italic p) (p_underline p) (p_blink p) (p_reverse p) (p_hidden p) (p_strike p))
  | 48 :: 5 :: n :: ps' => sgr ps' (Pen (p_fg p) (Some (Idx n)) (p_bold p) (p_dim p) (p_italic p) (p_underline p) (p_blink p) (p_reverse p) (p_hidden p) (p_strike p))
  | n :: ps' =>
      let p' :=
        if n =? 0 then pen0
        else if n =? 1 then Pen (p_fg p) (p_bg p) true (p_dim p) (p_italic p) (p_underline p) (p_blink p) (p_reverse p) (p_hidden p) (p_strike p)
        else if n =? 2 then Pen (p_fg p) (p_bg p) (p_bold p) true (p_italic p) (p_underline p) (p_blink p) (p_reverse p) (p_hidden p) (p_strike p)
        else if n =? 3 then Pen (p_fg p) (p_bg p) (p_bold p) (p_dim p) true (p_underline p) (p_blink p) (p_reverse p) (p_hidden p) (p_strike p)
        else if n =? 4 then Pen (p_fg p) (p_bg p) (p_bold p) (p_dim p) (p_italic p) true (p_blink p) (p_reverse p) (p_hidden p) (p_strike p)
        else if n =? 5 then Pen (p_fg p) (p_bg p) (p_bold p) (p_dim p) (p_italic p) (p_underline p) true (p_reverse p) (p_hidden p) (p_strike p)
        else if n =? 7 then Pen (p_fg p) (p_bg p) (p_bold p) (p_dim p) (p_italic p) (p_underline p) (p_blink p) true (p_hidden p) (p_strike p)
        else if n =? 8 then Pen (p_fg p) (p_bg p) (p_bold p) (p_dim p) (p_italic p) (p_underline p) (p_blink p) (p_reverse p) true (p_strike p)
        else if n =? 9 then Pen (p_fg p) (p_bg p) (p_bold p) (p_dim p) (p_italic p) (p_underline p) (p_blink p) (p_reverse p) (p_hidden p) true
        else if n =? 22 then Pen (p_fg p) (p_bg p) false false (p_italic p) (p_underline p) (p_blink p) (p_reverse p) (p_hidden p) (p_strike p)
        else if n =? 23 then Pen (p_fg p) (p_bg p) (p_bold p) (p_dim p) false (p_underline p) (p_blink p) (p_reverse p) (p_hidden p) (p_strike p)
        else if n =? 24 then Pen (p_fg p) (p_bg p) (p_bold p) (p_dim p) (p_italic p) false (p_blink p) (p_reverse p) (p_hidden p) (p_strike p)
        else if n =? 25 then Pen (p_fg p) (p_bg p) (p_bold p) (p_dim p) (p_italic p) (p_underline p) false (p_reverse p) (p_hidden p) (p_strike p)
        else if n =? 27 then Pen (p_fg p) (p_bg p) (p_bold p) (p_dim p) (p_italic p) (p_underline p) (p_blink p) false (p_hidden p) (p_strike p)
        else if n =? 28 then Pen (p_fg p) (p_bg p) (p_bold p) (p_dim p) (p_italic p) (p_underline p) (p_blink p) (p_reverse p) false (p_strike p)
        else if n =? 29 then Pen (p_fg p) (p_bg p) (p_bold p) (p_dim p) (p_italic p) (p_underline p) (p_blink p) (p_reverse p) (p_hidden p) false
        else if n =? 39 then Pen None (p_bg p) (p_bold p) (p_dim p) (p_italic p) (p_underline p) (p_blink p) (p_reverse p) (p_hidden p) (p_strike p)
        else if n =? 49 then Pen (p_fg p) None (p_bold p) (p_dim p) (p_italic p) (p_underline p) (p_blink p) (p_reverse p) (p_hidden p) (p_strike p)
        else if (30 <=? n) && (n <=? 37) then Pen (Some (Idx (n - 30))) (p_bg p) (p_bold p) (p_dim p) (p_italic p) (p_underline p) (p_blink p) (p_reverse p) (p_hidden p) (p_strike p)
        else if (90 <=? n) && (n <=? 97) then Pen (Some (Idx (n - 82))) (p_bg p) (p_bold p) (p_dim p) (p_italic p) (p_underline p) (p_blink p) (p_reverse p) (p_hidden p) (p_strike p)
        else if (40 <=? n) && (n <=? 47) then Pen (p_fg p) (Some (Idx (n - 40))) (p_bold p) (p_dim p) (p_italic p) (p_underline p) (p_blink p) (p_reverse p) (p_hidden p) (p_strike p)
        else if (100 <=? n) && (n <=? 107) then Pen (p_fg p) (Some (Idx (n - 92))) (p_bold p) (p_dim p) (p_italic p) (p_underline p) (p_blink p) (p_reverse p) (p_hidden p) (p_strike p)
        else p in
      sgr ps' p'
  end.

Definition nthp (ps : list Z) (i : nat) : Z := nth i ps 0.

(** Execute a CSI sequence with final byte [f]; [ps] are its parameters. *)
Definition csi (f : Z) (ps : list Z) (priv : bool) (t : term) : term :=
  let n := Z.max 1 (nthp ps 0) in
  if priv then
    if f =? 104 then                          (* h *)
      if nthp ps 0 =? 25 then set_vis t true
      else if nthp ps 0 =? 1049 then set_alt t true else t
    else if f =? 108 then                     (* l *)
      if nthp ps 0 =? 25 then set_vis t false
      else if nthp ps 0 =? 1049 then set_alt t false else t
    else t
  else if f =? 72 then                        (* H: cursor position *)
    set_cur t (clampZ 0 (tw t - 1) (Z.max 1 (nthp ps 1) - 1))
              (clampZ 0 (th t - 1) (Z.max 1 (nthp ps 0) - 1)) false
  else if f =? 65 then set_cur t (cx t) (Z.max 0 (cy t - n)) false            (* A *)
  else if f =? 66 then set_cur t (cx t) (Z.min (th t - 1) (cy t + n)) false   (* B *)
  else if f =? 67 then set_cur t (Z.min (tw t - 1) (cx t + n)) (cy t) false   (* C *)
  else if f =? 68 then set_cur t (Z.max 0 (cx t - n)) (cy t) false            (* D *)
  else if f =? 74 then                        (* J *)
    if nthp ps 0 =? 0 then
      erase_where t (fun x y => (cy t <? y) || ((y =? cy t) && (cx t <=? x)))
    else if nthp ps 0 =? 1 then
      erase_where t (fun x y => (y <? cy t) || ((y =? cy t) && (x <=? cx t)))
    else if nthp ps 0 =? 2 then erase_where t (fun _ _ => true)
    else t
  else if f =? 75 then                        (* K *)
    if nthp ps 0 =? 0 then erase_where t (fun x y => (y =? cy t) && (cx t <=? x))
    else if nthp ps 0 =? 1 then erase_where t (fun x y => (y =? cy t) && (x <=? cx t))
    else if nthp ps 0 =? 2 then erase_where t (fun x y => y =? cy t)
    else t
  else if f =? 109 then set_pen t (sgr ps (tpn t))   (* m *)
  else if f =? 115 then set_saved t (cx t, cy t)     (* s *)
  else if f =? 117 then set_cur t (fst (saved t)) (snd (saved t)) false   (* u *)
  else t.

Definition feed (t : term) (c : Z) : term :=
  match pst t with
  | Ground =>
      if c =? 27 then set_pst t Esc
      else if c =? 13 then set_cur t 0 (cy t) false
      else if c =? 10 then line_feed t
      else if (c <? 32) || (c =? 127) then t
      else put c t
  | Esc =>
      if c =? 91 then set_pst t (Csi [] 0 false)
      else if c =? 93 then set_pst t Osc
      else set_pst t Ground
  | Csi done cur priv =>
      if is_digit c then set_pst t (Csi done (cur * 10 + (c - 48)) priv)
      else if c =? 59 then set_pst t (Csi (cur :: done) 0 priv)
      else if c =? 63 then set_pst t (Csi done cur true)
      else if (64 <=? c) && (c <=? 126) then
        csi c (rev (cur :: done)) priv (set_pst t Ground)
      else t
  | Osc => if c =? 7 then set_pst t Ground else if c =? 27 then set_pst t Esc else t
  end.

Definition feeds (t : term) (bs : list Z) : term := fold_left feed bs t.

(** A freshly cleared terminal with the cursor at home. *)
Definition blank_term (w h : Z) (b : bool) : term :=
  Term w h b (fun _ _ => TCell 32 pen0 Single) 0 0 false pen0 Ground true false (0, 0).

End WithWidth.
