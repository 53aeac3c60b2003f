(** Model of the type assertion by which a form finds the Update method of a field's component
    (components/form/form.go:229-232), and of the Update methods the Phoenix components have. *)
From Verif Require Import Prelude.
From Coq Require Import String.
Open Scope string_scope.

(** Go types, as far as these signatures need them: a defined type (with its package and type arguments) or a pointer. *)
Inductive gotype := TNamed (pkg name : string) (args : list gotype) | TPtr (t : gotype).
(** Type identity (Go specification): defined types are identical only to themselves. *)
Fixpoint same (a b : gotype) : bool :=
  match a, b with
  | TNamed p n l, TNamed q m k =>
      String.eqb p q && String.eqb n m &&
      (fix go (l k : list gotype) := match l, k with [], [] => true | x :: l, y :: k => same x y && go l k | _, _ => false end) l k
  | TPtr a, TPtr b => same a b
  | _, _ => false
  end.
Definition sames (l k : list gotype) : bool := Nat.eqb (List.length l) (List.length k) && forallb (fun p => same (fst p) (snd p)) (combine l k).
Record sig := Sig { params : list gotype; results : list gotype }.
Definition same_sig (a b : sig) : bool := sames (params a) (params b) && sames (results a) (results b).

Definition t_msg := TNamed "tea" "Msg" [].
Definition t_cmd := TNamed "tea" "Cmd" [].
(* form.go:230-232: the method the form asks for; value.FieldModel is components/form/internal/domain/value/field.go:5 *)
Definition wanted : sig := Sig [t_msg] [TNamed "components/form/internal/domain/value" "FieldModel" []; t_cmd].
(* the type assertion succeeds iff the component has a method Update of exactly this signature *)
Definition updatable (update_method : option sig) : bool := match update_method with Some g => same_sig g wanted | None => false end.

(** The public components. [elem] is the element type of a Select or MultiSelect. *)
Inductive component := CInput | CTextArea | CSelect (elem : gotype) | CMultiSelect (elem : gotype) | CConfirm | CList | CTable | CViewport | CModal
  | CBar | CSpinner | CForm.
Definition self (t : gotype) : sig := Sig [t_msg] [t; t_cmd].
Definition update_method (c : component) : option sig :=
  Some match c with
  | CInput => self (TNamed "components/input" "Input" [])                            (* input.go:154 *)
  | CTextArea => self (TNamed "components/input" "TextArea" [])                      (* textarea.go:325 *)
  | CSelect t => self (TPtr (TNamed "components/select" "Select" [t]))               (* select.go:136 *)
  | CMultiSelect t => self (TPtr (TNamed "components/multiselect" "MultiSelect" [t])) (* multiselect.go:197 *)
  | CConfirm => self (TPtr (TNamed "components/confirm" "Confirm" []))               (* confirm.go:152 *)
  | CList => self (TPtr (TNamed "components/list" "List" []))                        (* list.go:194 *)
  | CTable => self (TPtr (TNamed "components/table" "Table" []))                     (* table.go:145 *)
  | CViewport => self (TPtr (TNamed "components/viewport" "Viewport" []))            (* viewport.go:162 *)
  | CModal => self (TPtr (TNamed "components/modal" "Modal" []))                     (* modal.go:201 *)
  | CBar => self (TNamed "components/progress" "Bar" [])                             (* bar.go:132 *)
  | CSpinner => self (TNamed "components/progress" "Spinner" [])                     (* spinner.go:74 *)
  | CForm => self (TPtr (TNamed "components/form" "Form" []))                        (* form.go:156 *)
  end.

(** A component with its state; [step] is what its own Update would do. The form's view of it: *)
Definition upd_through {S Msg : Type} (step : component -> S -> Msg -> S) (x : component * S) (m : Msg) : option (component * S) :=
  if updatable (update_method (fst x)) then Some (fst x, step (fst x) (snd x) m) else None.
