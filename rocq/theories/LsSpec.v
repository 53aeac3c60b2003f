(** Specification vocabulary for C31, C32, C66, C67. *)
From Verif Require Import Prelude KeysModel LsModel.

Section Spec.
Context {A : Type}.
(** What the list shows: everything without a query, the matching items in their order with one. *)
Definition shown (l : lst A) : list A :=
  match query l with [] => items l | q => filter (fun a => filt l a q) (items l) end.
Definition size_of (l : lst A) : Z := Z.of_nat (length (shown l)).

(** Heights set by the caller are positive, and the filter function is only replaced while no query is active. *)
Definition sane (u : ui A) (o : lop A) : Prop :=
  match o with OHeight h => 1 <= h | OFilter _ => query (dom u) = [] | _ => True end.
Fixpoint sane_run (u : ui A) (os : list (lop A)) : Prop :=
  match os with [] => True | o :: r => sane u o /\ sane_run (lstep u o) r end.

Record ls_ok (l : lst A) : Prop := LsOk {
  k_shown : filtered l = shown l;
  k_foc : 0 <= foc l /\ (foc l < size_of l \/ (size_of l = 0 /\ foc l = 0));
  k_sel : Forall (fun i => 0 <= i < size_of l) (sel l) /\ NoDup (sel l);
  k_single : single l = true -> (length (sel l) <= 1)%nat;
  k_h : 1 <= height l;
  k_scroll : 0 <= scroll l <= Z.max 0 (size_of l - height l) /\ (foc l < size_of l -> scroll l <= foc l < scroll l + height l) }.
End Spec.
