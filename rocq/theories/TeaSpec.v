(** Specification vocabulary for C13-C16. *)
From Verif Require Import Prelude TeaModel.

(** Messages accepted into the program's queue from outside the event loop. *)
Definition accepted (s : st) : list msg := map snd (filter (fun e => negb (fst e)) (entered s)).
(** Messages an event loop itself put into the queue (members of batches). *)
Definition reentered (s : st) : list msg := map snd (filter (fun e => fst e) (entered s)).

(** The user messages inside a message, batches flattened. *)
Fixpoint leaves (m : msg) : list Z :=
  match m with
  | MUser n => [n]
  | MQuit => []
  | MBatch l | MSeq l => (fix go l := match l with [] => [] | x :: r => leaves x ++ go r end) l
  end.
Definition members (m : msg) : list msg := match m with MBatch l | MSeq l => l | _ => [] end.
Definition user (m : msg) : list Z := match m with MUser n => [n] | _ => [] end.

(** Batch members an event loop is still holding. *)
Definition in_hand (l : lstate) : list msg := match l with Pushing r => r | _ => [] end.

(** Number of messages in a message, at all nesting levels. *)
Fixpoint size (m : msg) : nat :=
  match m with
  | MBatch l | MSeq l => S ((fix go l := match l with [] => O | x :: r => (size x + go r)%nat end) l)
  | _ => 1
  end.
Definition sizes (l : list msg) : nat := fold_right (fun m a => (size m + a)%nat) O l.

Fixpoint no_quit (m : msg) : bool :=
  match m with
  | MQuit => false
  | MUser _ => true
  | MBatch l | MSeq l => (fix go l := match l with [] => true | x :: r => no_quit x && go r end) l
  end.

Definition no_stop_timeout (ls : list label) : Prop := ~ In LStopTimeout ls.
Definition is_start (l : label) : bool := match l with LStart _ => true | _ => false end.

(** Messages in the program, queued or being unpacked, counted at all nesting levels. *)
Definition weight (s : st) : nat := (sizes (queue s) + sizes (flat_map in_hand (loops s)))%nat.

(** One loop, no quit anywhere, and no more messages than the queue can hold. *)
Definition quiet (s : st) : Prop :=
  exists l, loops s = [l] /\ (l = Pushing [] -> False) /\
  forallb no_quit (queue s) = true /\ forallb no_quit (in_hand l) = true /\ (weight s <= cap)%nat.
