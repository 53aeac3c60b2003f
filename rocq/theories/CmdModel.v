(** Model of the command combinators, tea/tea.go Batch 454-492 and Sequence 514-545 (the same
    code as tea/internal/domain/model/cmd.go 44-135), and of the message conversion between the
    public and internal types, tea/tea.go 619-747. *)
From Verif Require Import Prelude.

(* ---------- Batch and Sequence ---------- *)

Section Combinators.
Variable C : Type.   (* a non-nil command *)

(* tea.go:455-461, 515-521: nil commands are dropped *)
Fixpoint keep (cmds : list (option C)) : list C :=
  match cmds with [] => [] | Some c :: r => c :: keep r | None :: r => keep r end.

(** What a combinator returns: nil, one of its arguments, or a new command. *)
Inductive combined := CNil | COne (c : C) | CMany (l : list C).

(* tea.go:463-474, 523-534 *)
Definition combine (cmds : list (option C)) : combined :=
  match keep cmds with [] => CNil | [c] => COne c | l => CMany l end.
End Combinators.
Arguments keep {C}. Arguments combine {C}. Arguments CNil {C}. Arguments COne {C}. Arguments CMany {C}.

(** Batch's closure, tea.go:474-491: one goroutine per command, results through a channel with
    a slot for each, collected in arrival order. [spawned] commands have been given to a
    goroutine, [chan] holds results not yet collected; runs records which command ran with
    which result (the results are whatever the commands return). *)
Record bst := B { todo : list nat; chan : list Z; got : list Z; runs : list (nat * Z) }.

Inductive blabel := BExec (i : nat) (r : Z)  (* goroutine of command i: results <- c() *)
                  | BCollect.                (* msgs = append(msgs, <-results) *)

Definition bstep (n : nat) (s : bst) (l : blabel) : option bst :=
  match l with
  | BExec i r =>
      if existsb (Nat.eqb i) (todo s) && (length (chan s) <? n)%nat
      then Some (B (remove Nat.eq_dec i (todo s)) (chan s ++ [r]) (got s) (runs s ++ [(i, r)]))
      else None
  | BCollect =>
      match chan s with
      | r :: q => if (length (got s) <? n)%nat then Some (B (todo s) q (got s ++ [r]) (runs s)) else None
      | [] => None
      end
  end.
Fixpoint bsteps (n : nat) (s : bst) (ls : list blabel) : option bst :=
  match ls with [] => Some s | l :: r => match bstep n s l with Some s' => bsteps n s' r | None => None end end.
Definition bstart (n : nat) : bst := B (seq 0 n) [] [] [].
(** The closure has returned BatchMsg{got}. *)
Definition bdone (n : nat) (s : bst) : Prop := length (got s) = n.

(** Sequence's closure, tea.go:534-544: commands run one after another; a command is a
    function of the state of the world. *)
Fixpoint seq_run {W M : Type} (l : list (W -> M * W)) (w : W) : list M * W :=
  match l with
  | [] => ([], w)
  | c :: r => let (m, w1) := c w in let (ms, w2) := seq_run r w1 in (m :: ms, w2)
  end.

(* ---------- messages across the API ---------- *)

(** Key and mouse messages as their fields (the public and internal structs have the same
    fields, and enumerations with the same numbering, tea.go:181-211 and msg.go:22-52). *)
Record keyf := KeyF { k_type : Z; k_rune : Z; k_alt : bool; k_ctrl : bool; k_shift : bool }.
Record mousef := MouseF { m_x : Z; m_y : Z; m_button : Z; m_action : Z; m_alt : bool; m_ctrl : bool; m_shift : bool }.

(** A Go interface value of type Msg: its dynamic type is one of the public types, one of the
    internal types, or something else (including nil and user types). A nil slice and an empty
    slice are identified. *)
Inductive side := Pub | Int.
Inductive dyn :=
| DKey (s : side) (k : keyf) | DMouse (s : side) (m : mousef) | DSize (s : side) (w h : Z) | DQuit (s : side)
| DBatch (s : side) (l : list dyn) | DSeq (s : side) (l : list dyn)
| DPrint (s : side) (t : list Z) | DTick (s : side) (t : Z) | DOther (n : Z).

(* tea.go:669-716 *)
Fixpoint to_internal (v : dyn) : dyn :=
  match v with
  | DKey Pub k => DKey Int (KeyF (k_type k) (k_rune k) (k_alt k) (k_ctrl k) (k_shift k))
  | DMouse Pub m => DMouse Int (MouseF (m_x m) (m_y m) (m_button m) (m_action m) (m_alt m) (m_ctrl m) (m_shift m))
  | DSize Pub w h => DSize Int w h
  | DQuit Pub => DQuit Int
  | DBatch Pub l => DBatch Int (map to_internal l)
  | DSeq Pub l => DSeq Int (map to_internal l)
  | DPrint Pub t => DPrint Int t
  | DTick Pub t => DTick Int t
  | _ => v
  end.

(* tea.go:619-666 *)
Fixpoint to_public (v : dyn) : dyn :=
  match v with
  | DKey Int k => DKey Pub (KeyF (k_type k) (k_rune k) (k_alt k) (k_ctrl k) (k_shift k))
  | DMouse Int m => DMouse Pub (MouseF (m_x m) (m_y m) (m_button m) (m_action m) (m_alt m) (m_ctrl m) (m_shift m))
  | DSize Int w h => DSize Pub w h
  | DQuit Int => DQuit Pub
  | DBatch Int l => DBatch Pub (map to_public l)
  | DSeq Int l => DSeq Pub (map to_public l)
  | DPrint Int t => DPrint Pub t
  | DTick Int t => DTick Pub t
  | _ => v
  end.

(* tea.go:719-727: nil stays nil, otherwise the result is converted *)
Definition convert_cmd {W} (c : option (W -> dyn * W)) : option (W -> dyn * W) :=
  match c with None => None | Some f => Some (fun w => let (m, w') := f w in (to_internal m, w')) end.
