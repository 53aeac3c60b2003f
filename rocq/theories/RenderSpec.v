(** Specification vocabulary for the render properties (independent of how the
    renderer computes its output). *)
From Verif Require Import Prelude TermEmu RenderModel.

(** A frame is well formed when its cell array has the declared size
    (every buffer built through the API is: see the wf lemmas in RenderProofs). *)
Definition wf_buf (b : buffer) : Prop :=
  length (cells b) = bh b /\ Forall (fun row => length row = bw b) (cells b).

(** Patch a frame, seen as a function from positions to cells. *)
Definition patch1 (f : Z -> Z -> cell) (o : op) : Z -> Z -> cell :=
  fun x y => if (x =? ox o) && (y =? oy o) then ocell o else f x y.
Definition patch (f : Z -> Z -> cell) (ops : list op) : Z -> Z -> cell :=
  fold_left patch1 ops f.

(** Reading order of positions. *)
Definition before (a b : op) : Prop := oy a < oy b \/ (oy a = oy b /\ ox a < ox b).

(** The rendition a style denotes. *)
Definition tcolor_of (c : color) : tcolor := Rgb (cr c) (cg c) (cb c).
Definition pen_of (s : style) : pen :=
  Pen (option_map tcolor_of (fg s)) (option_map tcolor_of (bg s))
      (bold s) (dim s) (italic s) (underline s) (blink s) (reverse_ s) (hidden s) (strike s).

Definition color_ok (c : color) : Prop :=
  0 <= cr c <= 255 /\ 0 <= cg c <= 255 /\ 0 <= cb c <= 255.
Definition ocolor_ok (o : option color) : Prop := match o with None => True | Some c => color_ok c end.
Definition style_ok (s : style) : Prop := ocolor_ok (fg s) /\ ocolor_ok (bg s).

(** A cell the terminal displays in one column. *)
Definition cell_ok (cw : Z -> Z) (c : cell) : Prop :=
  32 <= char c /\ char c <> 127 /\ cw (char c) = 1 /\ cwidth c = 1 /\ style_ok (cstyle c).

(** A frame that fits a W x H terminal and consists of single-column cells. *)
Definition frame_ok (cw : Z -> Z) (W H : Z) (b : buffer) : Prop :=
  wf_buf b /\ Z.of_nat (bw b) <= W /\ Z.of_nat (bh b) <= H /\
  Forall (Forall (cell_ok cw)) (cells b).

Definition call_ok (cw : Z -> Z) (W H : Z) (c : call) : Prop :=
  match c with Render b => frame_ok cw W H b | _ => True end.

(** What the screen should show after a sequence of calls: the last frame rendered
    since the last Clear/Resize, blank elsewhere. *)
Definition blank_frame : Z -> Z -> cell := fun _ _ => empty_cell.
Definition expect1 (f : Z -> Z -> cell) (c : call) : Z -> Z -> cell :=
  match c with
  | Render b => get b
  | Clear | Resize _ _ => blank_frame
  | RenderNil | HideCursor | ShowCursor => f
  end.
Definition expected (cs : list call) : Z -> Z -> cell := fold_left expect1 cs blank_frame.

Definition on_screen (t : term) (x y : Z) : Prop := 0 <= x < tw t /\ 0 <= y < th t.

(** Two styles switch on the same attributes (they may differ in colour values). *)
Definition same_shape (a b : style) : Prop :=
  is_none (fg a) = is_none (fg b) /\ is_none (bg a) = is_none (bg b) /\
  bold a = bold b /\ dim a = dim b /\ italic a = italic b /\ underline a = underline b /\
  blink a = blink b /\ reverse_ a = reverse_ b /\ hidden a = hidden b /\ strike a = strike b.

Definition call_shape (s0 : style) (c : call) : Prop :=
  match c with
  | Render b => Forall (Forall (fun c => same_shape s0 (cstyle c))) (cells b)
  | _ => True
  end.
