(** C19, C20: command combinators and message conversion. *)
From Verif Require Import Prelude CmdModel CmdSpec CmdProofs.

(* ---------- C19 ---------- *)

(** Nil commands are dropped, order kept; none left gives nil, one is returned itself. *)
Theorem C19_combine {C} (cmds : list (option C)) :
  exists l, map Some l = filter (fun o => match o with Some _ => true | None => false end) cmds /\
    combine cmds = match l with [] => CNil | [c] => COne c | _ => CMany l end.
Proof. exists (keep cmds). split; [apply keep_spec|]. unfold combine. destruct (keep cmds) as [|a [|]]; reflexivity. Qed.

(** For every completion order: when the batch returns, each command has run exactly once and
    the batch's messages are their results, in completion order. *)
Theorem C19_batch_each_once n ls s : bsteps n (bstart n) ls = Some s -> bdone n s ->
  Permutation (map fst (runs s)) (seq 0 n) /\ got s = map snd (runs s).
Proof. intros H Hd. destruct (batch_done n ls s H Hd) as (A & B & _). auto. Qed.

(** It cannot deadlock: until it returns, the collector can proceed or a command is still
    running, and a command that returns is never held up. *)
Theorem C19_batch_progress n ls s : bsteps n (bstart n) ls = Some s ->
  (~ bdone n s -> (exists s', bstep n s BCollect = Some s') \/ todo s <> []) /\
  forall i r, In i (todo s) -> exists s', bstep n s (BExec i r) = Some s'.
Proof.
  intros H. split.
  - intros Hd. destruct (batch_progress n ls s H Hd) as [A|(i & Hi)]; auto. right. destruct (todo s); [destruct Hi|discriminate].
  - intros i r Hi. eapply batch_no_wait; eauto.
Qed.
Example C19_example : exists s, bsteps 3 (bstart 3) [BExec 2 70; BCollect; BExec 0 50; BExec 1 60; BCollect; BCollect] = Some s
  /\ bdone 3 s /\ got s = [70; 50; 60].
Proof. eexists. repeat split. Qed.

(* ---------- C332: a finished command's message is not held back by the others (violated) ---------- *)

(** The batch delivers nothing while one of its commands still runs, whatever the others have returned: as long as the second command
    (a Tick of an hour) is not done, the result of the first, done at once, does not leave the batch. *)
Theorem C332_held_back_refuted : exists n i j r s, i <> j /\ bsteps n (bstart n) [BExec i r] = Some s /\ In (i, r) (runs s) /\
  forall ls s', (forall r', ~ In (BExec j r') ls) -> bsteps n s ls = Some s' -> ~ bdone n s'.
Proof.
  exists 2%nat, 0%nat, 1%nat, 7. eexists. split; [discriminate|]. split; [reflexivity|]. split; [left; reflexivity|]. intros ls s' N H D.
  assert (H' : bsteps 2 (bstart 2) (BExec 0 7 :: ls) = Some s') by exact H. destruct (batch_done _ _ _ H' D) as (P & _).
  assert (I : In 1%nat (map fst (runs s'))) by (eapply Permutation_in; [apply Permutation_sym, P|cbn; auto]). clear H' P D.
  assert (G : forall ls s s', (forall r', ~ In (BExec 1 r') ls) -> bsteps 2 s ls = Some s' -> In 1%nat (map fst (runs s')) -> In 1%nat (map fst (runs s))).
  { clear. induction ls as [|l ls IH]; intros s s' N H I; [cbn in H; congruence|]. cbn [bsteps] in H. destruct (bstep 2 s l) as [s1|] eqn:E; [|discriminate].
    specialize (IH s1 s' ltac:(intros r' K; apply (N r'); right; exact K) H I). destruct l as [i r|]; cbn [bstep] in E.
    - destruct (existsb _ _ && _); [|discriminate]. injection E as <-. cbn [runs] in IH. rewrite map_app, in_app_iff in IH. destruct IH as [IH|[IH|[]]]; [exact IH|]. cbn in IH. subst i. destruct (N r). left. reflexivity.
    - destruct (chan s); [discriminate|]. destruct (_ <? _)%nat; [|discriminate]. injection E as <-. exact IH. }
  specialize (G _ _ _ N H I). cbn in G. intuition discriminate.
Qed.

(** A sequence runs its commands one after another, in order, each once, and reports the
    results in order. *)
Theorem C19_sequence_in_order {W M} (l : list (W -> M * W)) w ms w' :
  seq_run l w = (ms, w') <-> in_turn l w ms w'.
Proof. apply seq_run_spec. Qed.
Example C19_sequence_example : seq_run [fun w => (w + 1, w * 2); fun w => (w + 10, w - 1)] 5 = ([6; 20], 9).
Proof. reflexivity. Qed.

(* ---------- C20 ---------- *)

(** Round trip, at any nesting depth, for every message a user can build. *)
Theorem C20_public_roundtrip v : only Pub v -> to_public (to_internal v) = v.
Proof. exact (pub_int_pub v). Qed.
Theorem C20_internal_roundtrip v : only Int v -> to_internal (to_public v) = v.
Proof. exact (int_pub_int v). Qed.
(** The other side sees only its own types: the event loop recognises a public QuitMsg or
    BatchMsg, the user's Update never sees an internal type. *)
Theorem C20_sides v : (only Pub v -> only Int (to_internal v)) /\ (only Int v -> only Pub (to_public v)).
Proof. split; [apply to_internal_only|apply to_public_only]. Qed.
(** Nothing but the side changes: every field of every message, at any depth, is kept (so the
    event loop and the user see the same key, position, text, ...). *)
Theorem C20_same_contents v : contents (to_internal v) = contents v /\ contents (to_public v) = contents v.
Proof. split; [apply to_internal_contents|apply to_public_contents]. Qed.
(** A command given by the user produces, inside, the conversion of what it returns; nil stays nil. *)
Theorem C20_commands {W} (c : option (W -> dyn * W)) :
  match c, convert_cmd c with
  | None, None => True
  | Some f, Some g => forall w, only Pub (fst (f w)) ->
      only Int (fst (g w)) /\ to_public (fst (g w)) = fst (f w) /\ snd (g w) = snd (f w)
  | _, _ => False
  end.
Proof. destruct c as [f|]; cbn; auto. intros w. destruct (f w); cbn. intros H. split; [now apply to_internal_only|]. split; auto. now apply pub_int_pub. Qed.
Example C20_example : only Pub (DBatch Pub [DQuit Pub; DSeq Pub [DKey Pub (KeyF 1 0 true false false); DOther 4]; DTick Pub 9]).
Proof. repeat constructor. Qed.

Print Assumptions C19_combine. Print Assumptions C19_batch_each_once. Print Assumptions C19_batch_progress. Print Assumptions C332_held_back_refuted.
Print Assumptions C19_sequence_in_order. Print Assumptions C20_public_roundtrip. Print Assumptions C20_internal_roundtrip. Print Assumptions C20_sides.
Print Assumptions C20_same_contents. Print Assumptions C20_commands.
