(** Specification vocabulary for C29, C30, C65. *)
From Verif Require Import Prelude VpModel.

(** The largest useful offset: the last screenful. *)
Definition last_screen (v : vp) : Z := Z.max 0 (Z.of_nat (length (lines v)) - vh v).
Record vp_ok (v : vp) : Prop := VpOk { ok_off : 0 <= off v <= last_screen v; ok_h : 0 <= vh v; ok_w : 0 <= vw v }.

(** The content lines from the offset on, at most [height] of them. *)
Definition slice_of (v : vp) : list vline := firstn (Z.to_nat (vh v)) (skipn (Z.to_nat (off v)) (lines v)).

(** The longest prefix (in clusters) that fits. *)
Definition longest_fit (wd : list Z -> Z) (l p : vline) (w : Z) : Prop :=
  exists r, l = p ++ r /\ line_width wd p <= w /\ match r with [] => True | g :: _ => w < line_width wd (p ++ [g]) end.

Definition last_line_shown (v : vp) : Prop :=
  forall pre l, lines v = pre ++ [l] -> exists shown, slice_of v = shown ++ [l] /\ (length pre = length shown + Z.to_nat (off v))%nat.
