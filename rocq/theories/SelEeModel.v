(** Putting the parts together: a program (PdModel) whose model is a filterable Select (SelModel), fed by the keyboard (KeysModel).
    Code: components/select/select.go Update (136-175), View (203-262); internal/domain/model/defaults.go (default renderer).
    The options are strings (NewString, select.go:305-312), so an option's value is its label, in UTF-8. *)
From Verif Require Import Prelude Utf8 KeysModel SelModel.

Definition s_no_matches : list Z := [40; 110; 111; 32; 109; 97; 116; 99; 104; 101; 115; 41].          (* (no matches) *)
Definition s_no_options : list Z := [40; 110; 111; 32; 111; 112; 116; 105; 111; 110; 115; 41].        (* (no options) *)
Definition s_type : list Z := [84; 121; 112; 101; 32; 116; 111; 32; 102; 105; 108; 116; 101; 114; 46; 46; 46]. (* Type to filter... *)
Definition s_filter : list Z := [70; 105; 108; 116; 101; 114; 58; 32].                                (* Filter:  *)
Section SelEe.
Variable heap : Z -> list Z.
(* select.go:203-262: the text of each line SelModel.sview names; the help line and the counting title are MultiSelect's *)
Definition line_text (l : vline (Z * Z * bool)) : list Z :=
  match l with
  | VTitle t => t | VBlank => [] | VOpt (p, _, f) => sdefault_render (OT (heap p) [] false) f
  | VNoMatches => s_no_matches | VNoOptions => s_no_options | VFilter q => s_filter ++ q | VTypeToFilter => s_type
  | VTitleCount _ _ _ | VHelp => []
  end.
Fixpoint joined (ls : list (list Z)) : list Z := match ls with [] => [] | [l] => l | l :: r => l ++ 10 :: joined r end.
(* a panic is no string; the theorems exclude it *)
Definition se_view (title : list Z) (u : sui (list Z)) : list Z := match sview title u with Some ls => joined (map line_text ls) | None => [] end.
(* select.go:136-175; the returned command is not a part of the picture *)
Definition se_update (u : sui (list Z)) (k : keymsg) : sui (list Z) := sstep heap u (SKey k).
(** selectcomponent.New(title).Options(...).WithFilterable(true) with n options *)
Definition se_new (d : list Z -> list Z -> bool) (n : nat) : sui (list Z) := ssteps heap [SOptions (map Z.of_nat (seq 0 n)) d; SFilterable true] (new_sui d).
End SelEe.
