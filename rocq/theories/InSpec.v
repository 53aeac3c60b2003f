(** Specification vocabulary for C27, C28, C63, C64. *)
From Verif Require Import Prelude Utf8 InModel.

(** Cursor between 0 and the number of clusters; a non-empty selection lies inside the content. *)
Record ivalid (brk : list Z -> Z -> bool) (t : inp) : Prop := IValid {
  i_cursor : (cursor t <= length (graphemes brk (content t)))%nat;
  i_sel : forall a b, sel t = Some (a, b) -> a <> b -> (a < b <= length (graphemes brk (content t)))%nat;
  i_width : 1 <= iwidth t }.

(** Text on each side of the cursor. *)
Definition ibefore (brk : list Z -> Z -> bool) (t : inp) : list Z := concat (firstn (cursor t) (graphemes brk (content t))).
Definition iafter (brk : list Z -> Z -> bool) (t : inp) : list Z := concat (skipn (cursor t) (graphemes brk (content t))).

(** Segmentation in which every code point is a cluster of its own (plain ASCII text). *)
Definition every (left : list Z) (c : Z) : bool := true.
(** A simple segmentation: an acute accent (U+0301) joins the previous character. *)
Definition accents (left : list Z) (c : Z) : bool := negb (c =? 769).

Definition ascii (s : list Z) : Prop := Forall (fun c => 0 <= c < 128) s.
