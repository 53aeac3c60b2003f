(** Specification vocabulary for C35, C36, C74 to C77. *)
From Coq Require Import Sorted.
From Verif Require Import Prelude Utf8 KeysModel SelModel.

Section Spec.
Context {A : Type}.
Variable heap : Z -> A.
Record sel_ok (s : sel A) : Prop := SelOk {
  so_sub : forall p, In p (filtered s) -> In p (options s);
  so_cur : 0 <= cursor s /\ (cursor s < Z.of_nat (length (filtered s)) \/ (filtered s = [] /\ cursor s = 0));
  so_h : 1 <= height s;
  so_scroll : scroll s = 0;
  so_chosen : chosen s = -1 \/ 0 <= chosen s < Z.of_nat (length (options s)) }.
(** The first row drawn: the window starts at the top and moves only as far as the cursor needs. *)
Definition first_row (s : sel A) : Z := Z.max 0 (cursor s - height s + 1).

Record msel_ok (m : msel A) : Prop := MOk {
  mo_base : sel_ok (base m);
  mo_nodup : NoDup (idx (picked m));
  mo_nonneg : Forall (fun i => 0 <= i) (idx (picked m));
  mo_max : 0 <= mx (picked m) /\ (0 < mx (picked m) -> Z.of_nat (length (idx (picked m))) <= mx (picked m));
  mo_min : 0 <= mn (picked m) /\ (0 < mx (picked m) -> mn (picked m) <= mx (picked m)) }.
End Spec.
(** Characters that are typed into the filter (not bound to an action). *)
Definition free_char (c : Z) : Prop := c <> 107 /\ c <> 106 /\ c <> 103 /\ c <> 71.
Definition mfree_char (c : Z) : Prop := free_char c /\ c <> 97 /\ c <> 110.
