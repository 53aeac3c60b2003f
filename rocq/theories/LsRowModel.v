(** How a list draws an item when no renderer was set: components/list/internal/domain/model/list.go:50-60, used by
    the constructor (36) and RenderItem (291-301). Characters, not bytes. *)
From Verif Require Import Prelude LsModel.

Definition default_row {A} (label : A -> list Z) (a : A) (_ : Z) (selected focused : bool) : list Z :=
  let prefix := [32; 32] in
  let prefix := if selected then [10003; 32] else prefix in
  let prefix := if focused then [62; 32] else prefix in
  prefix ++ label a.
