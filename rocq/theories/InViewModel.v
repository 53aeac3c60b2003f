(** Model of the text input's View: components/input/input.go 45-48 (Placeholder), 81-84 (ShowCursor),
    172-184 (View), 187-199 (renderPlaceholder), 265-296 (renderCursor); the window itself is
    InModel.render_content (202-263). What the theme's styles add is a parameter. *)
From Verif Require Import Prelude Utf8 InModel.

Section View.
Variable brk : list Z -> Z -> bool.       (* cluster boundaries, see InModel *)
Variable hl : list Z -> list Z.           (* style.Render with the cursor's style, 281-295 *)
Variable ps : list Z -> list Z.           (* style.Render with the placeholder's style, 195-198 *)

Record ivw := IV { base : inp; ph : list Z; show : bool }.
(* model/input.go:27-45 *)
Definition new_ivw (w : Z) : ivw := IV (new_inp w) [] true.

Inductive vop := VBase (o : iop) | VPlaceholder (p : list Z) | VShow (b : bool).
Definition vapply (o : vop) (v : ivw) : ivw :=
  match o with
  | VBase o => IV (iapply brk o (base v)) (ph v) (show v)
  | VPlaceholder p => IV (base v) p (show v)          (* model/input.go:175-178 *)
  | VShow b => IV (base v) (ph v) b                   (* model/input.go:188-191 *)
  end.
Definition vapply_all (os : list vop) (v : ivw) : ivw := fold_left (fun v o => vapply o v) os v.

(* 265-296 *)
Definition render_cursor (v : ivw) (at_ : list Z) : list Z :=
  if negb (show v) then at_ else match at_ with [] => hl [32] | _ => hl at_ end.
(* 172-199 and the ends of 202-263; None: a slice out of range *)
Definition view (v : ivw) : option (list Z) :=
  match content (base v), focused (base v) with
  | [], false => match ph v with [] => Some [] | p => Some (ps p) end
  | _, _ => match render_content brk (base v) with
            | Some (WithCell b a c) => Some (b ++ render_cursor v a ++ c)
            | Some (NoCell s) => Some s
            | None => None
            end
  end.
End View.
