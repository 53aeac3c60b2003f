(** Model of what a text area draws: components/input/textarea.go (View, Placeholder,
    ShowLineNumbers, ShowCursor) and
    components/input/internal/textarea/infrastructure/renderer/textarea_renderer.go.

    The state of TaModel is extended with the three settings only the renderer reads. Every
    other operation copies them (textarea.go, model, 417-439: copy). *)
From Verif Require Import Prelude TaModel.
From Verif Require SyModel.

Record area := Area { core : ta; ph : list Z; nums : bool; curs : bool }.

(* textarea.go (model) 44-61 *)
Definition new_area : area := Area new_ta [] false true.

Inductive aop := AEdit (o : op) | APlaceholder (s : list Z) | ALineNumbers (b : bool) | AShowCursor (b : bool).

(* textarea.go (API) 73-165, textarea.go (model) 98-131; lineNumberWidth is never read *)
Definition astep (o : aop) (a : area) : area :=
  match o with
  | AEdit o => Area (apply o (core a)) (ph a) (nums a) (curs a)
  | APlaceholder s => Area (core a) s (nums a) (curs a)
  | ALineNumbers b => Area (core a) (ph a) b (curs a)
  | AShowCursor b => Area (core a) (ph a) (nums a) b
  end.
Definition asteps (os : list aop) (a : area) : area := fold_left (fun a o => astep o a) os a.

(* buffer.go:59-61 *)
Definition is_empty (t : ta) : bool := match buf t with [[]] => true | _ => false end.

(* textarea_renderer.go:56: fmt.Sprintf("%4d ", n) *)
Definition number (n : Z) : list Z := repeat 32 (4 - length (dec n)) ++ dec n ++ [32].

(* textarea_renderer.go:77-92 *)
Definition line_with_cursor (l : list Z) (c : nat) : list Z :=
  if (length l <=? c)%nat then l ++ [27; 91; 55; 109; 32; 27; 91; 50; 55; 109]
  else firstn c l ++ [27; 91; 55; 109] ++ firstn 1 (skipn c l) ++ [27; 91; 50; 55; 109] ++ skipn (S c) l.

(* textarea_renderer.go:50-66, one turn of the loop, without the line break *)
Definition draw_line (a : area) (i : nat) (l : list Z) : list Z :=
  let actual := Z.of_nat i + srow (core a) in
  (if nums a then number (actual + 1) else []) ++
  (if (actual =? Z.of_nat (row (core a))) && curs a then line_with_cursor l (col (core a)) else l).

(* textarea_renderer.go:50-71: i counts the lines; a line break after all but the last *)
Fixpoint draw_lines (a : area) (i : nat) (ls : list (list Z)) : list Z :=
  match ls with
  | [] => []
  | [l] => draw_line a i l
  | l :: r => draw_line a i l ++ nl :: draw_lines a (S i) r
  end.

Section Width.
Variable sw : list Z -> Z. (* core.StringWidth *)

(* textarea_renderer.go:34-38 *)
Definition draw_placeholder (a : area) : list Z :=
  SyModel.render sw (SyModel.styled [SyModel.Foreground (SyModel.from256 240)]) (ph a).

(* textarea.go (API) 354-356, textarea_renderer.go:21-31; None: View panics *)
Definition view (a : area) : option (list Z) :=
  if is_empty (core a) then
    match ph a with [] => Some [] | _ => Some (draw_placeholder a) end
  else option_map (draw_lines a 0) (visible_lines (core a)).
End Width.
