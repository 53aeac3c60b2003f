(** Putting the parts together: a program (PdModel) whose model is a filterable MultiSelect (SelModel), fed by the keyboard (KeysModel).
    Code: components/multiselect/multiselect.go Update (198-204), View (283-308), renderOptions to renderHelp (310-354); internal/domain/model/defaults.go (default renderer).
    The options are strings (NewStrings), so an option's value is its label, in UTF-8. *)
From Verif Require Import Prelude Utf8 KeysModel SelModel SelEeModel.

Definition s_of_open : list Z := [32; 40].                                                            (*  ( *)
Definition s_of : list Z := [32; 111; 102; 32].                                                       (*  of  *)
Definition s_selected : list Z := [32; 115; 101; 108; 101; 99; 116; 101; 100; 41].                    (*  selected) *)
Definition s_help : list Z :=                                                                         (*   a: all  n: none  Space: toggle  Enter: confirm *)
  [32; 32; 97; 58; 32; 97; 108; 108; 32; 32; 110; 58; 32; 110; 111; 110; 101; 32; 32; 83; 112; 97; 99; 101; 58; 32; 116; 111; 103; 103; 108; 101; 32; 32; 69; 110; 116; 101; 114; 58; 32; 99; 111; 110; 102; 105; 114; 109].
Section MsEe.
Variable heap : Z -> list Z.
(* multiselect.go:283-354: the text of each line SelModel.mview names *)
Definition mline_text (l : vline (Z * Z * bool * bool)) : list Z :=
  match l with
  | VTitle t => t | VTitleCount t k total => t ++ s_of_open ++ dec k ++ s_of ++ dec total ++ s_selected | VBlank => []
  | VOpt (p, _, f, s) => mdefault_render (OT (heap p) [] false) f s
  | VNoMatches => s_no_matches | VNoOptions => s_no_options | VFilter q => s_filter ++ q | VTypeToFilter => s_type | VHelp => s_help
  end.
(* a panic is no string; the theorems exclude it *)
Definition me_view (title : list Z) (u : mui (list Z)) : list Z := match mview title u with Some ls => joined (map mline_text ls) | None => [] end.
(* multiselect.go:198-204; the returned command is not a part of the picture *)
Definition me_update (u : mui (list Z)) (k : keymsg) : mui (list Z) := mstep heap u (MKey k).
(** multiselect.New(title).Options(...).Max(most).WithFilterable(true) with n options *)
Definition me_new (d : list Z -> list Z -> bool) (n most : nat) : mui (list Z) :=
  msteps heap [MOptions (map Z.of_nat (seq 0 n)) d; MMax (Z.of_nat most); MFilterable true] (new_mui d).
End MsEe.
