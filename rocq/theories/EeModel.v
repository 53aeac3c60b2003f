(** Putting the parts together: a program (PdModel) whose model is a focused text input (InModel), fed by the
    keyboard (KeysModel), drawn with the style package (SyModel).
    Code: components/input/input.go Update (153-170), View (172-184), renderCursor (270-296);
    tea.KeyMsg is what the input receives (components/input/internal/input/infrastructure/keybindings.go:26-76). *)
From Verif Require Import Prelude Utf8 KeysModel.
From Verif Require InModel SyModel.

(** The key message as the input's bindings see it: type, rune and Ctrl flag (keybindings.go:26-76). *)
Definition to_ikey (k : keymsg) : InModel.ikey :=
  InModel.IKey (kctrl k) (krune k)
    match ktype k with
    | KLeft => InModel.ILeft | KRight => InModel.IRight | KHome => InModel.IHome | KEnd => InModel.IEnd
    | KBackspace => InModel.IBackspace | KDelete => InModel.IDelete | KSpace => InModel.ISpace | KRune => InModel.IRune
    | _ => InModel.IOther
    end.

Section Ee.
Variable brk : list Z -> Z -> bool.      (* cluster boundaries, see InModel *)
Variable sw : list Z -> Z.               (* widths, see SyModel *)
Variables focus back : SyModel.color.    (* the theme's focus and background colours *)

(* input.go:153-170 Update *)
Definition ee_update (t : InModel.inp) (k : keymsg) : InModel.inp := InModel.update brk t (to_ikey k).

(* input.go:281-284 *)
Definition cursor_style : SyModel.style := SyModel.styled [SyModel.Background focus; SyModel.Foreground back].
(* input.go:270-296 renderCursor with the cursor shown; SyModel's texts are code points *)
Definition render_cursor (at_ : list Z) : list Z :=
  enc (SyModel.render sw cursor_style (match at_ with [] => [32] | _ => runes_of at_ end)).
(* input.go:172-184 View for a focused input (no placeholder); a slice out of range is a crash (C63: never) *)
Definition ee_view (t : InModel.inp) : list Z :=
  match InModel.render_content brk t with
  | Some (InModel.WithCell b a c) => b ++ render_cursor a ++ c
  | Some (InModel.NoCell s) => s
  | None => []
  end.

(** input.New(w).Focused(true) *)
Definition ee_new (w : Z) : InModel.inp := InModel.iapply brk (InModel.IFocus true) (InModel.new_inp w).
End Ee.
