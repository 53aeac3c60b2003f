(** Invariants of JcModel. *)
From Verif Require Import Prelude JcModel.

Definition waiting (p : place) : bool := match p with AtWait | AtReclaim => true | _ => false end.
Definition isTTY (c : call) : bool := match c with Exec => false | _ => true end.
Definition own (c : call) : bool := match c with ExecTTY _ true => true | _ => false end.

Definition invb (c : call) (s : st) : bool :=
  match fg s with GShell => match app s with Running => false | _ => true end | GCmd => transfer c && waiting (pc s) | GApp => true end
  && match pc s with AtIgnore | AtSuspend => tui s | Returned _ => true | _ => negb (tui s) end
  && Bool.eqb (ignTTOU s) (match pc s with AtIgnore | Returned _ => false | _ => isTTY c end)
  && match pc s, cmd s with
     | (AtIgnore | AtSuspend | AtStart), None => negb (reaped s)
     | AtTransfer, Some _ => transfer c && negb (reaped s)
     | AtWait, Some _ => negb (reaped s)
     | AtReclaim, Some Gone => transfer c && reaped s
     | (AtResume false | Returned false), Some Gone => reaped s
     | (AtResume true | Returned true), None => negb (reaped s)
     | AtResume true, Some Gone => negb (reaped s) && transfer c && negb (own c)
     | Returned true, Some Gone => reaped s || (transfer c && negb (own c))
     | _, _ => false
     end
  && (if transfer c && own c && waiting (pc s) then match fg s, app s with GCmd, Running => true | _, _ => false end else true)
  && (if own c then true else match cmd s, app s with Some Stopped, Running => false | _, _ => true end).

Lemma inv_start c : invb c start = true.
Proof. destruct c as [|[|] [|]]; reflexivity. Qed.

Ltac calls c := let DC := fresh in
  assert (DC : c = Exec \/ c = ExecTTY true true \/ c = ExecTTY true false \/ c = ExecTTY false true \/ c = ExecTTY false false)
    by (destruct c as [|[|] [|]]; auto); destruct DC as [-> | [-> | [-> | [-> | ->]]]].

Lemma inv_step c s s' : invb c s = true -> step c s s' -> invb c s' = true.
Proof.
  intros I H. destruct s as [p a m r f g t n].
  inversion H as [s1 R K | s1 R K | s1 R K | s1 K]; subst; inversion K; subst; clear H K; cbn in *; subst;
    calls c; cbn in *;
    try (destruct handled); try destruct b; try (destruct p as [| | | | | |[|]|[|]]); try discriminate;
    try destruct f; try discriminate; try destruct t; try discriminate; try destruct g; try discriminate;
    try destruct m as [[| |]|]; try discriminate; try destruct r; try discriminate; try destruct a; try discriminate; try reflexivity; try congruence;
    intuition congruence.
Qed.

Lemma inv_steps c s s' : invb c s = true -> steps c s s' -> invb c s' = true.
Proof. intros I H. induction H as [|s s' s'' H IH K]; [exact I|]. exact (inv_step _ _ _ (IH I) K). Qed.
Lemma inv c s : reach c s -> invb c s = true.
Proof. intros H. exact (inv_steps c start s (inv_start c) H). Qed.
