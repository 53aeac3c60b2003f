(** Model of what themes do to components: components/input/input.go 102-109 (Theme), 187-199 (renderPlaceholder),
    281-295 (renderCursor); components/list/list.go 140-157 (Theme, clone), 252-292 (View). Update and the other setters
    copy the component with its theme. Simplification: a theme is a value (its fields are never written after it was built);
    the list's rows come from a renderer [rend], its filter and so on are LsModel's. *)
From Verif Require Import Prelude Text LsModel InViewModel.
From Verif Require SyModel.
Notation theme := SyModel.theme.

Section Width.
Variable sw : list Z -> Z.
(* input.go:189-192, 275-278; list.go:254-257 *)
Definition theme_used (t : option theme) : theme := match t with Some t => t | None => SyModel.default_theme end.
(* theme.go:22-66: the palette's fields in order *)
Definition palette (t : option theme) (i : nat) : SyModel.color := nth i (SyModel.tcolors (theme_used t)) SyModel.black.
(* input.go:281-295 *)
Definition cursor_look (t : option theme) (s : list Z) : list Z := SyModel.render sw (SyModel.styled [SyModel.Background (palette t 11); SyModel.Foreground (palette t 2)]) s.
(* input.go:194-198 *)
Definition placeholder_look (t : option theme) (s : list Z) : list Z :=
  SyModel.render sw (SyModel.styled [SyModel.Foreground (nth 0 (SyModel.ttypo (theme_used t)) SyModel.black)]) s.

(* input.go:15-20 *)
Record tinput := TI { field : ivw; itheme : option theme }.
Inductive tiop := IOp (o : vop) | ITheme (t : option theme).
Definition tistep (brk : list Z -> Z -> bool) (o : tiop) (i : tinput) : tinput :=
  match o with IOp o => TI (vapply brk o (field i)) (itheme i) | ITheme t => TI (field i) t end.
(* input.go:22-33: no theme *)
Definition new_tinput (w : Z) : tinput := TI (new_ivw w) None.
Definition tisteps (brk : list Z -> Z -> bool) (os : list tiop) (i : tinput) : tinput := fold_left (fun i o => tistep brk o i) os i.
Definition input_view (brk : list Z -> Z -> bool) (i : tinput) : option (list Z) := view brk (cursor_look (itheme i)) (placeholder_look (itheme i)) (field i).

(* list.go:55-62 *)
Record tlist A := TL { base_list : ui A; ltheme : option theme }.
Arguments TL {A}. Arguments base_list {A}. Arguments ltheme {A}.
Inductive tlop A := LOp (o : lop A) | LTheme (t : option theme).
Arguments LOp {A}. Arguments LTheme {A}.
Definition tlstep {A} (l : tlist A) (o : tlop A) : tlist A :=
  match o with LOp o => TL (lstep (base_list l) o) (ltheme l) | LTheme t => TL (base_list l) t end.
Definition tlsteps {A} (os : list (tlop A)) (l : tlist A) : tlist A := fold_left tlstep os l.
Definition new_tlist {A} (dflt : A -> list Z -> bool) (its : list A) (one : bool) : tlist A := TL (new_ui dflt its one) None.
(* list.go:261-291; an item that is not there is drawn as the empty text *)
Definition row_text (t : option theme) (r : vrow (list Z)) : list Z :=
  match r with
  | RItem (Some s) => s
  | RItem None => []
  | RNoMatches => SyModel.render sw (SyModel.styled [SyModel.Foreground (palette t 5)]) [40; 110; 111; 32; 109; 97; 116; 99; 104; 101; 115; 41]
  | REmptyList => SyModel.render sw (SyModel.styled [SyModel.Foreground (palette t 5)]) [40; 101; 109; 112; 116; 121; 32; 108; 105; 115; 116; 41]
  | RFilterActive => SyModel.render sw (SyModel.styled [SyModel.Foreground (palette t 9)]) [70; 105; 108; 116; 101; 114; 58; 32; 40; 97; 99; 116; 105; 118; 101; 41]
  end.
Definition list_view {A} (rend : A -> Z -> bool -> bool -> list Z) (l : tlist A) : option (list Z) :=
  option_map (fun rs => join_nl (map (row_text (ltheme l)) rs)) (view_rows rend (dom (base_list l)) (show_filter (base_list l))).
End Width.
Arguments TL {A}. Arguments base_list {A}. Arguments ltheme {A}. Arguments LOp {A}. Arguments LTheme {A}.
