(** Specification vocabulary for C19, C20. *)
From Verif Require Import Prelude CmdModel.

(** Running commands one after another: the i-th result is the i-th command's, in the world
    the earlier ones left. *)
Inductive in_turn {W M} : list (W -> M * W) -> W -> list M -> W -> Prop :=
| turn_nil w : in_turn [] w [] w
| turn_cons c r w m w1 ms w2 : c w = (m, w1) -> in_turn r w1 ms w2 -> in_turn (c :: r) w (m :: ms) w2.

(** All message types occurring in a value, at any depth inside batches, are of one side. *)
Inductive only (s : side) : dyn -> Prop :=
| o_key k : only s (DKey s k) | o_mouse m : only s (DMouse s m) | o_size w h : only s (DSize s w h)
| o_quit : only s (DQuit s) | o_print t : only s (DPrint s t) | o_tick t : only s (DTick s t)
| o_other n : only s (DOther n)
| o_batch l : Forall (only s) l -> only s (DBatch s l)
| o_seq l : Forall (only s) l -> only s (DSeq s l).

(** A message with the side of every type in it forgotten: what is being said. *)
Fixpoint contents (v : dyn) : dyn :=
  match v with
  | DKey _ k => DKey Pub k | DMouse _ m => DMouse Pub m | DSize _ w h => DSize Pub w h
  | DQuit _ => DQuit Pub
  | DBatch _ l => DBatch Pub (map contents l) | DSeq _ l => DSeq Pub (map contents l)
  | DPrint _ t => DPrint Pub t | DTick _ t => DTick Pub t | DOther n => DOther n
  end.
