(** Putting the parts together: a program (PdModel) whose model is a text area (TaModel, TaViewModel), fed by the keyboard (KeysModel).
    Code: components/input/textarea.go Update (327-351), View (354-356); tea.KeyMsg is what the key bindings receive
    (components/input/internal/textarea/infrastructure/keybindings/emacs.go:26-150). *)
From Verif Require Import Prelude Utf8 KeysModel.
From Verif Require TaModel TaViewModel.

(** The key message as emacs.go sees it: type, rune, Ctrl and Alt. *)
Definition to_takey (k : keymsg) : TaModel.key :=
  TaModel.Key (kctrl k) (kalt k)
    match ktype k with
    | KRune => TaModel.KRune (krune k) | KSpace => TaModel.KSpace | KUp => TaModel.KUp | KDown => TaModel.KDown | KLeft => TaModel.KLeft
    | KRight => TaModel.KRight | KHome => TaModel.KHome | KEnd => TaModel.KEnd | KBackspace => TaModel.KBackspace | KDelete => TaModel.KDelete
    | KEnter => TaModel.KEnter | _ => TaModel.KOther
    end.
(* textarea.go:327-351 *)
Definition te_update (a : TaViewModel.area) (k : keymsg) : TaViewModel.area := TaViewModel.astep (TaViewModel.AEdit (TaModel.OKey (to_takey k))) a.
(* textarea.go:354-356; View's text is code points *)
Definition te_view (sw : list Z -> Z) (a : TaViewModel.area) : list Z := match TaViewModel.view sw a with Some v => enc v | None => [] end.
(** NewTextArea().Size(w, h) *)
Definition te_new (w h : Z) : TaViewModel.area := TaViewModel.astep (TaViewModel.AEdit (TaModel.OSize w h)) TaViewModel.new_area.
