(** Several goroutines calling the methods of one object whose methods take the object's lock.

    A model of the language's side only (goroutines, sync.Mutex and sync.RWMutex); the objects are given by the files that
    use it. A method runs its body in steps, each a single access to the shared state, so that without the lock the bodies
    of two goroutines would mix. A lock is held exclusively (Lock) or shared with other readers (RLock); which goroutine
    gets a free lock is open, and so is which goroutine runs next. Between its calls a goroutine may act on something
    outside the object (an operating system resource), one action at a time. *)
From Verif Require Import Prelude.

Section Mx.
Variables Sh Lo Call Res Os Oc : Type.
Variable excl_lock : Call -> bool.                            (* Lock or RLock *)
Variable first : Call -> Lo.                                  (* the local state on entering the body *)
Variable next : Call -> Lo -> Sh -> (Lo * Sh) + Res.          (* one step of the body, or its return value *)
Variable outside : Oc -> Os -> Os.

Inductive item := Out (o : Oc) | Do (c : Call).
Inductive status := Idle | Inside (c : Call) (l : Lo) | Leaving (c : Call) (r : Res).
Record thread := Th { st : status; todo : list item; done : list (Call * Res) }.
Record sys := Sys { sh : Sh; os : Os; ths : list thread }.

Definition holds (t : thread) : bool := match st t with Idle => false | _ => true end.
Definition holds_excl (t : thread) : bool := match st t with Idle => false | Inside c _ | Leaving c _ => excl_lock c end.
(** Lock waits for everybody, RLock for a writer. *)
Definition free_for (c : Call) (ts : list thread) : bool := forallb (fun t => negb (if excl_lock c then holds t else holds_excl t)) ts.
Fixpoint put (i : nat) (t : thread) (ts : list thread) : list thread :=
  match ts, i with [], _ => [] | _ :: r, O => t :: r | x :: r, S j => x :: put j t r end.

(** One step of goroutine [i]; None: it is finished or has to wait. *)
Definition step (i : nat) (s : sys) : option sys :=
  match nth_error (ths s) i with
  | None => None
  | Some t =>
      match st t with
      | Idle =>
          match todo t with
          | [] => None
          | Out o :: r => Some (Sys (sh s) (outside o (os s)) (put i (Th Idle r (done t)) (ths s)))
          | Do c :: r => if free_for c (ths s) then Some (Sys (sh s) (os s) (put i (Th (Inside c (first c)) r (done t)) (ths s))) else None
          end
      | Inside c l =>
          match next c l (sh s) with
          | inl (l', x) => Some (Sys x (os s) (put i (Th (Inside c l') (todo t) (done t)) (ths s)))
          | inr r => Some (Sys (sh s) (os s) (put i (Th (Leaving c r) (todo t) (done t)) (ths s)))
          end
      | Leaving c r => Some (Sys (sh s) (os s) (put i (Th Idle (todo t) (done t ++ [(c, r)])) (ths s)))
      end
  end.
(** A schedule names goroutines; one that cannot go on is passed over. *)
Fixpoint exec (sched : list nat) (s : sys) : sys :=
  match sched with [] => s | i :: r => exec r (match step i s with Some s' => s' | None => s end) end.
Definition begin (x : Sh) (o : Os) (ps : list (list item)) : sys := Sys x o (map (fun p => Th Idle p []) ps).
Definition finished (s : sys) : Prop := Forall (fun t => st t = Idle /\ todo t = []) (ths s).
End Mx.
Arguments Out {Call Oc}. Arguments Do {Call Oc}. Arguments Idle {Lo Call Res}. Arguments Inside {Lo Call Res}. Arguments Leaving {Lo Call Res}.
Arguments Th {Lo Call Res Oc}. Arguments st {Lo Call Res Oc}. Arguments todo {Lo Call Res Oc}. Arguments done {Lo Call Res Oc}.
Arguments Sys {Sh Lo Call Res Os Oc}. Arguments sh {Sh Lo Call Res Os Oc}. Arguments os {Sh Lo Call Res Os Oc}. Arguments ths {Sh Lo Call Res Os Oc}.
Arguments holds {Lo Call Res Oc}. Arguments holds_excl {Lo Call Res Oc}. Arguments put {Lo Call Res Oc}. Arguments step {Sh Lo Call Res Os Oc}. Arguments exec {Sh Lo Call Res Os Oc}.
Arguments begin {Sh Lo Call Res Os Oc}. Arguments finished {Sh Lo Call Res Os Oc}. Arguments free_for {Lo Call Res Oc}.
