(** Model of the theme of a table, a modal, a viewport, a progress bar and a spinner: the field and the methods Theme of
    components/table/table.go 41-46, 106-115, components/modal/modal.go 50-57, 182-193, components/viewport/viewport.go
    338-351, components/progress/bar.go 20-24, 104-111 and components/progress/spinner.go 22-26, 56-63, next to what
    TbModel, MdModel, VpModel and PgModel model. *)
From Verif Require Import Prelude.
From Verif Require TbModel MdModel VpModel PgModel SyModel.
Notation theme := SyModel.theme.

(** A component and its theme (nil: None). *)
Record themed A := Themed { body : A; its_theme : option theme }.
Arguments Themed {A}. Arguments body {A}. Arguments its_theme {A}.
(** A call of Theme or any other. *)
Inductive call O := Theme (t : option theme) | Do (o : O).
Arguments Theme {O}. Arguments Do {O}.

(** Methods that copy the theme with the rest: all of modal.go 80-280, viewport.go 60-177, 309-336, bar.go 43-102,
    spinner.go 48-83. *)
Definition with_theme_kept {A O} (step : A -> O -> A) (x : themed A) (c : call O) : themed A :=
  match c with Theme t => Themed (body x) t | Do o => Themed (step (body x) o) (its_theme x) end.

(* table.go 86-141, 155-218, 365-405: SetRows, SortByColumn, ClearSort and the keys leave the theme behind *)
Definition table_step (fmt : TbModel.cell -> list Z) (sorter : (TbModel.row -> TbModel.row -> bool) -> list TbModel.row -> list TbModel.row) (x : themed TbModel.table) (c : call TbModel.top) : themed TbModel.table :=
  match c with
  | Theme t => Themed (body x) t
  | Do o => Themed (TbModel.tstep fmt sorter (body x) o)
      (match o with
       | TbModel.THeight _ | TbModel.THeader _ => its_theme x
       | TbModel.TKey k => if existsb (TbModel.key_in k) [[[8593]; [107]]; [[8595]; [106]]; [[104; 111; 109; 101]; [103]]; [[101; 110; 100]; [71]];
                                                          [[112; 103; 117; 112]]; [[112; 103; 100; 111; 119; 110]]; [[99]]] then None else its_theme x
       | TbModel.TSort key =>
           match find (fun c => list_eqb (TbModel.ckey c) key) (TbModel.columns (body x)) with
           | Some c => if TbModel.sortable c then None else its_theme x
           | None => its_theme x
           end
       | TbModel.TRows _ | TbModel.TClear => None
       end)
  end.
(* modal.go 80-280 *)
Definition modal_step (fold_eq : list Z -> list Z -> bool) : themed MdModel.modal -> call MdModel.mop -> themed MdModel.modal := with_theme_kept (MdModel.mstep fold_eq).
(* modal.go 201-224: the modal and the action of the message it sends *)
Definition modal_update (fold_eq : list Z -> list Z -> bool) (x : themed MdModel.modal) (g : MdModel.mmsg) : themed MdModel.modal * option (list Z) :=
  let '(m, a) := MdModel.update fold_eq (body x) g in (Themed m (its_theme x), a).
(* viewport.go 57-177 *)
Definition viewport_step : themed VpModel.view -> call VpModel.vop -> themed VpModel.view := with_theme_kept VpModel.vstep.
(* bar.go 43-102 *)
Definition bar_step : themed PgModel.bar -> call PgModel.bop -> themed PgModel.bar := with_theme_kept PgModel.bstep.
(* spinner.go 48-83: a message or a label *)
Definition spinner_step : themed PgModel.spinner -> call (PgModel.smsg + list Z) -> themed PgModel.spinner :=
  with_theme_kept (fun s o => match o with inl m => fst (PgModel.supdate s m) | inr l => PgModel.with_slabel s l end).
Definition run {A O} (step : themed A -> call O -> themed A) (cs : list (call O)) (x : themed A) : themed A := fold_left step cs x.

(* ---------- the views: table.go 224-308, modal.go 283-311, viewport.go 262-270, bar.go 140-143, spinner.go 88-96; none of them reads the theme ---------- *)
Definition table_view (fmt : TbModel.cell -> list Z) (x : themed TbModel.table) : option (list (list Z)) := TbModel.view fmt (body x).
Definition modal_view (x : themed MdModel.modal) : option (list (list Z) * list MdModel.row) := MdModel.view (body x).
Definition viewport_view (wd : list Z -> Z) (x : themed VpModel.view) : option (list Z) := VpModel.view_text wd (body x).
Definition bar_view (x : themed PgModel.bar) : option (list Z) := PgModel.render_bar (body x).
Definition spinner_view (x : themed PgModel.spinner) : list Z := PgModel.sview (body x).
