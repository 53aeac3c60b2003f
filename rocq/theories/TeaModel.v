(** Model of the tea event loop: tea/internal/application/program/program.go
    (New 101, Run 144-252, Start 271-378, Stop 384-422, Quit 439-445, Send 466-481,
    executeCommand 484-495, input reader 529-593), as a labelled transition system.
    One transition is one channel operation or one call into user code; goroutines are
    interleaved arbitrarily.

    Simplifications: Run and Start have the same loop and are one label; View/render,
    Init and the terminal are elsewhere (InlineModel, LifeModel); the application's Update
    is an arbitrary function, so it is only recorded; the 100 ms / 1 s timeouts may fire
    at any moment; unbuffered quitCh is a rendezvous. *)
From Verif Require Import Prelude.

(* tea/internal/domain/model/msg.go: user messages, QuitMsg, BatchMsg, SequenceMsg *)
Inductive msg := MUser (n : Z) | MQuit | MBatch (l : list msg) | MSeq (l : list msg).

(* program.go:107: msgCh = make(chan Msg, 100) *)
Definition cap : nat := 100.

(** Where an event loop goroutine is. *)
Inductive lstate :=
| Idle                       (* at the select, program.go:206 *)
| Pushing (rest : list msg)  (* re-enqueuing batch members, program.go:215-217, 223-225 *)
| Updating.                  (* in Update / renderView, program.go:237-246 *)

(** Goroutines waiting to put a message into msgCh. *)
Inductive src := FromSend | FromCmd | FromKey.

Record st := St {
  queue : list msg;              (* msgCh *)
  loops : list lstate;           (* live event loops *)
  running : bool;                (* p.running *)
  waiting : list (src * msg);
  cmds : nat;                    (* commands being executed *)
  (* history, for the statements *)
  entered : list (bool * msg);   (* everything put into msgCh; true: by an event loop *)
  handled : list msg;            (* everything taken from msgCh *)
  updates : list Z }.            (* user messages Update was called with *)

Definition init : st := St [] [] false [] 0 [] [] [].

Inductive label :=
| LStart (withcmd : bool)           (* Run/Start is called; Init returned a command or not *)
| LSend (m : msg)                   (* Send(m) saw running = true *)
| LKey (m : msg)                    (* the input reader decoded a key *)
| LCmdDone (m : msg)                (* a command returned *)
| LEnq (i : nat)                    (* waiting goroutine i puts its message into msgCh *)
| LSendTimeout (i : nat)
| LTake (k : nat)                   (* loop k receives from msgCh *)
| LUpdDone (k : nat) (withcmd : bool)
| LPush (k : nat)                   (* loop k re-enqueues one batch member *)
| LQuitLoop (k : nat)               (* Quit(): received by loop k *)
| LQuitWait (i : nat)               (* Quit(): received by a waiting command or reader *)
| LQuitLost                         (* Quit(): nobody receiving, default branch *)
| LStopTimeout.                     (* Stop(): one second passed, program.go:406-411 *)

Fixpoint remove_nth {A} (i : nat) (l : list A) : list A :=
  match l, i with
  | [], _ => []
  | _ :: t, O => t
  | h :: t, S j => h :: remove_nth j t
  end.

Definition room (s : st) : bool := (length (queue s) <? cap)%nat.
Definition set_loop (s : st) (k : nat) (l : lstate) : list lstate := set_nth (loops s) k l.
Definition pushing (l : list msg) : lstate := match l with [] => Idle | _ => Pushing l end.
Definition is_idle (l : lstate) : bool := match l with Idle => true | _ => false end.
Definition hears_quit (w : src * msg) : bool := match fst w with FromSend => false | _ => true end.

Definition step (s : st) (l : label) : option st :=
  let '(St q ls run w c ent han upd) := s in
  match l with
  | LStart wc =>                                   (* 145-150, 194-197 *)
      if run then None
      else Some (St q (ls ++ [Idle]) true w (if wc then S c else c) ent han upd)
  | LSend m => if run then Some (St q ls run (w ++ [(FromSend, m)]) c ent han upd) else None
  | LKey m => Some (St q ls run (w ++ [(FromKey, m)]) c ent han upd)
  | LCmdDone m =>
      match c with
      | O => None
      | S c' => Some (St q ls run (w ++ [(FromCmd, m)]) c' ent han upd)
      end
  | LEnq i =>
      match nth_error w i with
      | Some (_, m) => if (length q <? cap)%nat
                       then Some (St (q ++ [m]) ls run (remove_nth i w) c (ent ++ [(false, m)]) han upd)
                       else None
      | None => None
      end
  | LSendTimeout i =>
      match nth_error w i with
      | Some (FromSend, _) => Some (St q ls run (remove_nth i w) c ent han upd)
      | _ => None
      end
  | LTake k =>
      match nth_error ls k, q with
      | Some Idle, m :: q' =>
          match m with
          | MQuit => Some (St q' (remove_nth k ls) false w c ent (han ++ [m]) upd)      (* 209-211, 172 *)
          | MBatch l | MSeq l =>
              Some (St q' (set_nth ls k (pushing l)) run w c ent (han ++ [m]) upd)      (* 214-227 *)
          | MUser n => Some (St q' (set_nth ls k Updating) run w c ent (han ++ [m]) (upd ++ [n]))
          end
      | _, _ => None
      end
  | LUpdDone k wc =>
      match nth_error ls k with
      | Some Updating => Some (St q (set_nth ls k Idle) run w (if wc then S c else c) ent han upd)
      | _ => None
      end
  | LPush k =>
      match nth_error ls k with
      | Some (Pushing (m :: r)) =>
          if (length q <? cap)%nat
          then Some (St (q ++ [m]) (set_nth ls k (pushing r)) run w c (ent ++ [(true, m)]) han upd)
          else None
      | _ => None
      end
  | LQuitLoop k =>
      match nth_error ls k with
      | Some Idle => Some (St q (remove_nth k ls) false w c ent han upd)                (* 248-249, 172 *)
      | _ => None
      end
  | LQuitWait i =>
      match nth_error w i with
      | Some x => if hears_quit x then Some (St q ls run (remove_nth i w) c ent han upd) else None
      | None => None
      end
  | LQuitLost =>
      if existsb is_idle ls || existsb hears_quit w then None else Some s
  | LStopTimeout => if run then Some (St q ls false w c ent han upd) else None
  end.

Fixpoint steps (s : st) (ls : list label) : option st :=
  match ls with
  | [] => Some s
  | l :: r => match step s l with Some s' => steps s' r | None => None end
  end.

(** Steps only the event loop itself takes. *)
Definition loop_label (l : label) : bool :=
  match l with LTake _ | LUpdDone _ _ | LPush _ => true | _ => false end.
