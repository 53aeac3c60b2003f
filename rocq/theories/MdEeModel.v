(** Model of the string Modal.View returns: /repo/components/modal/modal.go 283-388, on top of MdModel.view (which says what is
    drawn where). *)
From Verif Require Import Prelude Utf8 KeysModel MdModel.

(* modal.go:340, 346, 350, 369, 376, 380, 385: fmt.Sprintf("\x1b[%d;%dH", row, col) and the row's text; the newline is added below *)
Definition row_line (r : row) : list Z := 27 :: 91 :: dec (rrow r) ++ (59 :: dec (rcol r)) ++ [72] ++ enc (cells r).
(* modal.go:283-311 (background 314-333, box 336-388). A panic (None) is no string; the theorems exclude it.
   Simplification: title, content and labels are ASCII (a byte is a cell). *)
Definition view_string (m : modal) : list Z :=
  match view m with
  | Some (bg, rows) => flat_map (fun l => enc l ++ [10]) bg ++ flat_map (fun r => row_line r ++ [10]) rows
  | None => []
  end.
(* tea.WindowSizeMsg among the messages: tea/internal/application/program/program.go 231-238 *)
Definition msize (g : mmsg) : option (Z * Z) := match g with MResize w h => Some (w, h) | _ => None end.
