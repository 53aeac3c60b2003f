(** Model of the fluent API of layout/layout.go over pointers: *Box and *Flex are objects with one field, the immutable domain value;
    every setter assigns that field and returns its own receiver.
    A program is a list of calls on numbered objects; a call on an object that does not exist is not a program. *)
From Verif Require Import Prelude LyModel.

(* layout.go:144-383 with value/spacing.go:47-95, value/alignment.go:80-104 *)
Inductive bcall := CSize (o : sop)
| CPadding (t r b l : Z) | CPaddingAll (p : Z) | CPaddingVH (v h : Z)
| CBorder | CNoBorder
| CMargin (t r b l : Z) | CMarginAll (p : Z) | CMarginVH (v h : Z)
| CAlignLeft | CAlignCenter | CAlignRight | CAlignTop | CAlignMiddle | CAlignBottom | CAlign (h : halign) (v : valign).
Definition call_op (c : bcall) : bop :=
  match c with
  | CSize o => BSize o
  | CPadding t r b l => BPadding t r b l
  | CPaddingAll p => BPadding p p p p
  | CPaddingVH v h => BPadding v h v h
  | CBorder => BBorder true
  | CNoBorder => BBorder false
  | CMargin t r b l => BMargin t r b l
  | CMarginAll p => BMargin p p p p
  | CMarginVH v h => BMargin v h v h
  | CAlignLeft => BAlign HLeft VTop
  | CAlignCenter => BAlign HCenter VMiddle
  | CAlignRight => BAlign HRight VTop
  | CAlignTop => BAlign HLeft VTop
  | CAlignMiddle => BAlign HLeft VMiddle
  | CAlignBottom => BAlign HLeft VBottom
  | CAlign h v => BAlign h v
  end.
(* layout.go:576-722 (all but Add and AddRaw), model/flexbox.go:107-168; the container's own size *)
Record fobj := FObj { fdom : flex; fsize : size }.
Inductive fcall := FGap (g : Z) | FJustify (j : justify) | FAlign (a : align) | FWidth (w : Z) | FHeight (h : Z).
Definition fstep (x : fobj) (c : fcall) : option fobj :=
  let f := fdom x in
  match c with
  | FGap g => match with_gap f g with Some f' => Some (FObj f' (fsize x)) | None => None end
  | FJustify j => Some (FObj (Flex (horizontal f) j (falign f) (fgap f) (items f)) (fsize x))
  | FAlign a => Some (FObj (Flex (horizontal f) (fjust f) a (fgap f) (items f)) (fsize x))
  | FWidth w => match with_size_op (fsize x) (SWidth w) with Some s => Some (FObj f s) | None => None end
  | FHeight h => match with_size_op (fsize x) (SHeight h) with Some s => Some (FObj f s) | None => None end
  end.
(* layout.go:512-533 *)
Definition new_fobj (h : bool) : fobj := FObj (new_flex h) size_any.

(** The heap: boxes and containers in the order they were made. *)
Record heap := Heap { boxes : list box; flexes : list fobj }.
Inductive call :=
| PNewBox (c : list Z) | PBox (i : nat) (c : bcall) | PRenderBox (i : nat)
| PRow | PColumn | PFlex (j : nat) (c : fcall) | PAdd (j i : nat) | PAddRaw (j : nat) (c : list Z) | PRenderFlex (j : nat) (w h : Z).
(** What a call gives back: a pointer to a box or a container, a text, or nothing because it panicked. *)
Inductive answer := ABox (i : nat) | AFlex (j : nat) | AText (s : list Z) | APanic.

Section Width.
Variable sw : list Z -> Z.
Definition add_to (x : fobj) (b : box) : fobj := FObj (add_item (fdom x) b) (fsize x).
Definition step (p : heap) (c : call) : heap * answer :=
  match c with
  | PNewBox s => match new_box s with Some b => (Heap (boxes p ++ [b]) (flexes p), ABox (length (boxes p))) | None => (p, APanic) end
  (* layout.go:144-383: b.domain = ...; return b *)
  | PBox i c => match nth_error (boxes p) i with
                | Some b => match bstep b (call_op c) with Some b' => (Heap (set_nth (boxes p) i b') (flexes p), ABox i) | None => (p, APanic) end
                | None => (p, APanic)
                end
  (* layout.go:401-414 *)
  | PRenderBox i => match nth_error (boxes p) i with
                    | Some b => (Heap (set_nth (boxes p) i (fst (box_render sw b))) (flexes p), AText (snd (box_render sw b)))
                    | None => (p, APanic)
                    end
  | PRow => (Heap (boxes p) (flexes p ++ [new_fobj true]), AFlex (length (flexes p)))
  | PColumn => (Heap (boxes p) (flexes p ++ [new_fobj false]), AFlex (length (flexes p)))
  | PFlex j c => match nth_error (flexes p) j with
                 | Some x => match fstep x c with Some x' => (Heap (boxes p) (set_nth (flexes p) j x'), AFlex j) | None => (p, APanic) end
                 | None => (p, APanic)
                 end
  (* layout.go:547-551: the node holds the domain value of the moment *)
  | PAdd j i => match nth_error (flexes p) j, nth_error (boxes p) i with
                | Some x, Some b => (Heap (boxes p) (set_nth (flexes p) j (add_to x b)), AFlex j)
                | _, _ => (p, APanic)
                end
  (* layout.go:561-563; the box made is not reachable afterwards *)
  | PAddRaw j s => match nth_error (flexes p) j, new_box s with
                   | Some x, Some b => (Heap (boxes p) (set_nth (flexes p) j (add_to x b)), AFlex j)
                   | _, _ => (p, APanic)
                   end
  (* layout.go:757-810 *)
  | PRenderFlex j w h => match nth_error (flexes p) j with
                         | Some x => match flex_render sw (fdom x) w h with Some t => (p, AText t) | None => (p, APanic) end
                         | None => (p, APanic)
                         end
  end.
Fixpoint runp (p : heap) (cs : list call) : heap := match cs with [] => p | c :: r => runp (fst (step p c)) r end.
Definition empty : heap := Heap [] [].
End Width.
