(** Model of components/viewport: viewport.go, internal/domain/model/viewport.go,
    internal/domain/service/scroll.go, internal/domain/value, internal/infrastructure/keybindings.go.

    A line is the list of its grapheme clusters; the display width of a cluster is the parameter
    [wd] (the uniseg library; StringWidth of a line is the sum over its clusters). *)
From Verif Require Import Prelude KeysModel Text.

Section Viewport.
Variable wd : list Z -> Z.

Definition vline := list (list Z).
Definition line_width (l : vline) : Z := fold_right (fun g a => wd g + a) 0 l.

(* domain/model/viewport.go:15-22 *)
Record vp := VP { lines : list vline; vw : Z; vh : Z; off : Z; follow : bool; wrapm : bool }.

(* scroll.go:40-45 *)
Definition max_offset (total h : Z) : Z := if total <=? h then 0 else total - h.
(* viewport_size.go:12-20, scroll_offset.go:12-17 *)
Definition nonneg (z : Z) : Z := if z <? 0 then 0 else z.
(* scroll_offset.go:43-54 *)
Definition clamp_off (o m : Z) : Z :=
  let o := if o <? 0 then 0 else o in let m := if m <? 0 then 0 else m in if m <? o then m else o.
Definition total (v : vp) : Z := Z.of_nat (length (lines v)).

(* viewport.go (model) 25-34 *)
Definition new_vp (w h : Z) : vp := VP [] (nonneg w) (nonneg h) 0 false false.
(* 45-61 *)
Definition with_lines (v : vp) (c : list vline) : vp :=
  let n := Z.of_nat (length c) in
  VP c (vw v) (vh v) (if follow v then nonneg (max_offset n (vh v)) else clamp_off (off v) (max_offset n (vh v))) (follow v) (wrapm v).
(* 64-73: the maximum is computed from the raw height argument *)
Definition with_size (v : vp) (w h : Z) : vp :=
  VP (lines v) (nonneg w) (nonneg h) (clamp_off (off v) (max_offset (total v) h)) (follow v) (wrapm v).
(* 77-88 *)
Definition with_follow (v : vp) (b : bool) : vp :=
  VP (lines v) (vw v) (vh v) (if b then nonneg (max_offset (total v) (vh v)) else off v) b (wrapm v).
(* 91-95 *)
Definition with_wrap (v : vp) (b : bool) : vp := VP (lines v) (vw v) (vh v) (off v) (follow v) b.
Definition at_off (v : vp) (o : Z) (f : bool) : vp := VP (lines v) (vw v) (vh v) (nonneg o) f (wrapm v).
(* 99-105; scroll.go:49-55 *)
Definition scroll_up (v : vp) (n : Z) : vp := at_off v (if off v - n <? 0 then 0 else off v - n) false.
(* 108-120; scroll.go:59-65, 90-93 *)
Definition scroll_down (v : vp) (n : Z) : vp :=
  let m := max_offset (total v) (vh v) in
  let o := if m <? off v + n then m else off v + n in
  at_off v o (if m <=? o then true else follow v).
(* 124-139 *)
Definition to_top (v : vp) : vp := at_off v 0 false.
Definition to_bottom (v : vp) : vp := at_off v (max_offset (total v) (vh v)) true.
(* 145-158 *)
Definition with_offset (v : vp) (o : Z) : vp :=
  let m := max_offset (total v) (vh v) in
  let o := if o <? 0 then 0 else o in at_off v (if m <? o then m else o) false.

(* scroll.go:15-35; None: the slice expression panics *)
Definition window (c : list vline) (o h : Z) : option (list vline) :=
  let n := Z.of_nat (length c) in
  if (n =? 0) || (h <=? 0) then Some []
  else let o := if o <? 0 then 0 else o in
       let o := if n <=? o then n - 1 else o in
       let e := if n <? o + h then n else o + h in
       if (0 <=? o) && (o <=? e) && (e <=? n) then Some (firstn (Z.to_nat (e - o)) (skipn (Z.to_nat o) c)) else None.

(* viewport.go (model) 263-285 *)
Fixpoint truncate_from (l : vline) (cur w : Z) : vline :=
  match l with [] => [] | g :: r => if w <? cur + wd g then [] else g :: truncate_from r (cur + wd g) w end.
Definition truncate_line (l : vline) (w : Z) : vline := if w <=? 0 then [] else truncate_from l 0 w.

(* viewport.go (model) 318-337: [cur] is the segment being built *)
Fixpoint wrap_from (l cur : vline) (cw w : Z) : list vline :=
  match l with
  | [] => match cur with [] => [] | _ => [cur] end
  | g :: r =>
      if (w <? cw + wd g) && (0 <? cw) then cur :: wrap_from r [g] (wd g) w
      else wrap_from r (cur ++ [g]) (cw + wd g) w
  end.
(* 304-340 *)
Definition wrap_line (l : vline) (w : Z) : list vline :=
  if w <=? 0 then [] else if line_width l <=? w then [l] else wrap_from l [] 0 w.

(* 172-180, 249-259, 289-300 *)
Definition visible (v : vp) : option (list vline) :=
  match window (lines v) (off v) (vh v) with
  | None => None
  | Some ls =>
      if wrapm v then Some (if vw v <=? 0 then [] else flat_map (fun l => wrap_line l (vw v)) ls)
      else Some (if vw v <=? 0 then [] else map (fun l => truncate_line l (vw v)) ls)
  end.

(* ---------- viewport.go (public) ---------- *)
Record view := V { dom : vp; mouse_on : bool; per_wheel : Z; dragging : bool; drag_y : Z; scroll_y : Z }.
(* 27-34 *)
Definition new_view (w h : Z) : view := V (new_vp w h) false 3 false 0 0.
Definition with_dom (v : view) (d : vp) : view := V d (mouse_on v) (per_wheel v) (dragging v) (drag_y v) (scroll_y v).

(* keybindings.go:21-56, 59-68 *)
Definition key_in (k : keymsg) (names : list (list Z)) : bool := existsb (list_eqb (key_string k)) names.
Definition up_keys : list (list Z) := [[8593]; [107]].
Definition down_keys : list (list Z) := [[8595]; [106]].
Definition pgup_keys : list (list Z) := [[112; 103; 117; 112]; [98]; [99; 116; 114; 108; 43; 98]].
Definition pgdn_keys : list (list Z) := [[112; 103; 100; 111; 119; 110]; [102]; [99; 116; 114; 108; 43; 102]; [115; 112; 97; 99; 101]].
Definition home_keys : list (list Z) := [[104; 111; 109; 101]; [103]].
Definition end_keys : list (list Z) := [[101; 110; 100]; [71]].
Definition halfup_keys : list (list Z) := [[99; 116; 114; 108; 43; 117]].
Definition halfdn_keys : list (list Z) := [[99; 116; 114; 108; 43; 100]].

(* viewport.go:180-216 *)
Definition on_key (v : vp) (k : keymsg) : vp :=
  if key_in k up_keys then scroll_up v 1
  else if key_in k down_keys then scroll_down v 1
  else if key_in k pgup_keys then scroll_up v (vh v)
  else if key_in k pgdn_keys then scroll_down v (vh v)
  else if key_in k home_keys then to_top v
  else if key_in k end_keys then to_bottom v
  else if key_in k halfup_keys then scroll_up v (vh v / 2)
  else if key_in k halfdn_keys then scroll_down v (vh v / 2)
  else v.

Inductive mbutton := MNone | MLeft | MMiddle | MRight | MWheelUp | MWheelDown.
Inductive maction := MPress | MRelease | MMotion.
(* viewport.go:219-259 *)
Definition on_mouse (v : view) (b : mbutton) (a : maction) (y : Z) : view :=
  match b with
  | MWheelUp => with_dom v (scroll_up (dom v) (per_wheel v))
  | MWheelDown => with_dom v (scroll_down (dom v) (per_wheel v))
  | _ =>
      match a with
      | MPress => match b with MLeft => V (dom v) (mouse_on v) (per_wheel v) true y (off (dom v)) | _ => v end
      | MRelease => if dragging v then V (dom v) (mouse_on v) (per_wheel v) false 0 0 else v
      | MMotion => if dragging v then with_dom v (with_offset (dom v) (scroll_y v - (y - drag_y v))) else v
      end
  end.

Inductive vop :=
| VKey (k : keymsg) | VMouse (b : mbutton) (a : maction) (y : Z) | VWindowSize (w h : Z)
| VSetLines (c : list vline) | VAppend (c : list vline) | VFollow (b : bool) | VWrap (b : bool) | VMouseOn (b : bool)
| VWheel (n : Z) | VBottom | VTop | VOffset (o : Z).
(* viewport.go:57-177 *)
Definition vstep (v : view) (o : vop) : view :=
  match o with
  | VKey k => with_dom v (on_key (dom v) k)
  | VMouse b a y => if mouse_on v then on_mouse v b a y else v
  | VWindowSize w h => with_dom v (with_size (dom v) w h)
  | VSetLines c => with_dom v (with_lines (dom v) c)
  | VAppend c => with_dom v (with_lines (dom v) (lines (dom v) ++ c))
  | VFollow b => with_dom v (with_follow (dom v) b)
  | VWrap b => with_dom v (with_wrap (dom v) b)
  | VMouseOn b => V (dom v) b (per_wheel v) (dragging v) (drag_y v) (scroll_y v)
  | VWheel n => V (dom v) (mouse_on v) (if n <? 1 then 1 else n) (dragging v) (drag_y v) (scroll_y v)
  | VBottom => with_dom v (to_bottom (dom v))
  | VTop => with_dom v (to_top (dom v))
  | VOffset o => with_dom v (with_offset (dom v) o)
  end.
Definition vsteps (os : list vop) (v : view) : view := fold_left vstep os v.

(* scroll.go:74-95; domain/model/viewport.go:183-210 *)
Definition can_scroll_up (v : vp) : bool := 0 <? off v.
Definition can_scroll_down (v : vp) : bool := off v <? max_offset (total v) (vh v).
Definition is_at_top (v : vp) : bool := off v =? 0.
Definition is_at_bottom (v : vp) : bool := max_offset (total v) (vh v) <=? off v.
(* viewport.go:97-102: SetContent splits the text at newlines; [seg] splits a line into its clusters *)
Definition set_content (seg : list Z -> vline) (v : view) (text : list Z) : view := vstep v (VSetLines (map seg (split_nl text))).
(* viewport.go:262-270 *)
Definition view_text (v : view) : option (list Z) := option_map (fun ls => join_nl (map (@concat Z) ls)) (visible (dom v)).
End Viewport.
