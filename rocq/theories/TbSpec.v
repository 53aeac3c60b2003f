(** Specification vocabulary for C33, C34, C69, C70. *)
From Coq Require Import Permutation Sorted.
From Verif Require Import Prelude KeysModel TbModel.

(** A strict weak order on the elements satisfying [P]. *)
Record weak_order {B} (P : B -> Prop) (lt : B -> B -> bool) : Prop := WO {
  wo_asym : forall a b, P a -> P b -> lt a b = true -> lt b a = false;
  wo_neg : forall a b c, P a -> P b -> P c -> lt a b = false -> lt b c = false -> lt a c = false }.
Definition tied {B} (lt : B -> B -> bool) (a b : B) : bool := negb (lt a b) && negb (lt b a).
(** [l'] is [l] sorted: a rearrangement, in order, tied elements keeping their relative order. *)
Record stable_sorted {B} (lt : B -> B -> bool) (l l' : list B) : Prop := SS {
  ss_perm : Permutation l l';
  ss_order : StronglySorted (fun a b => lt b a = false) l';
  ss_stable : forall x, In x l -> filter (tied lt x) l' = filter (tied lt x) l }.
(** The documented contract of sort.SliceStable. *)
Definition sort_contract (sorter : (row -> row -> bool) -> list row -> list row) : Prop :=
  (forall lt l, Permutation l (sorter lt l)) /\
  (forall lt l, weak_order (fun x => In x l) lt -> stable_sorted lt l (sorter lt l)).

(** A column whose values all have one type (or are absent), without NaN. *)
Inductive kind := KdStr | KdInt | KdInt64 | KdFloat | KdBool.
Definition has_kind (k : kind) (c : cell) : Prop :=
  match c, k with
  | CNil, _ => True | CStr _, KdStr => True | CInt _, KdInt => True | CInt64 _, KdInt64 => True
  | CFloat (Some _), KdFloat => True | CBool _, KdBool => True | _, _ => False
  end.
Definition uniform (rs : list row) (key : list Z) : Prop := exists k, forall r, In r rs -> has_kind k (r key).

(** The order of values of one type: absent first, then the natural order. *)
Definition below (a b : cell) : Prop :=
  match a, b with
  | CNil, CNil => False | CNil, _ => True | _, CNil => False
  | CStr x, CStr y => exists p, (exists c r, x = p /\ y = p ++ c :: r) \/ (exists c d r s, x = p ++ c :: r /\ y = p ++ d :: s /\ c < d)
  | CInt x, CInt y => x < y | CInt64 x, CInt64 y => x < y
  | CFloat (Some x), CFloat (Some y) => x < y
  | CBool x, CBool y => x = false /\ y = true
  | _, _ => False
  end.

(** Rows that fit under the height, positive; sizes change only while the first row is selected. *)
Definition tsane (t : table) (o : top) : Prop :=
  match o with
  | THeight h => tsel t = 0 /\ tscroll t = 0 /\ 1 <= (if header t then h - 1 else h)
  | THeader b => tsel t = 0 /\ tscroll t = 0 /\ 1 <= (if b then theight t - 1 else theight t)
  | _ => True end.
Fixpoint tsane_run fmt sorter (t : table) (os : list top) : Prop :=
  match os with [] => True | o :: r => tsane t o /\ tsane_run fmt sorter (tstep fmt sorter t o) r end.
Definition fits (t : table) : Z := if header t then theight t - 1 else theight t.
