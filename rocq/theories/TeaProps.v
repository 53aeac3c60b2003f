(** C13-C16: the tea event loop, for every schedule. *)
From Verif Require Import Prelude TeaModel TeaSpec TeaProofs.

(** A reachable state of the program: any schedule of any length. *)
Definition reach (ls : list label) (s : st) : Prop := steps init ls = Some s.

(* ---------- C13 ---------- *)

(** Whatever the interleaving: what the loop has taken followed by what is queued is exactly
    what entered the queue, in that order. *)
Theorem C13_fifo ls s : reach ls s -> map snd (entered s) = handled s ++ queue s.
Proof. intros H. apply (inv_steps ls init s inv_init H). Qed.

(** Update is called exactly with the user messages taken from the queue, in order, once. *)
Theorem C13_update_each_once_in_order ls s : reach ls s -> updates s = flat_map user (handled s).
Proof. intros H. apply (inv_steps ls init s inv_init H). Qed.

(** Nothing accepted from outside is lost or duplicated, through any nesting of batches:
    the user messages inside what was accepted are those Update saw, those still queued and
    those the loop holds while unpacking a batch. *)
Theorem C13_none_lost ls s : reach ls s ->
  Permutation (flat_map leaves (accepted s))
    (updates s ++ flat_map leaves (queue s) ++ flat_map (fun l => flat_map leaves (in_hand l)) (loops s)).
Proof. intros H. apply (inv_steps ls init s inv_init H). Qed.

(** Members of batches and sequences are appended to the queue in batch order. *)
Theorem C13_batch_members_in_order ls s : reach ls s -> no_stop_timeout ls ->
  reentered s ++ flat_map in_hand (loops s) = flat_map members (handled s).
Proof. intros H Hn. apply (ordered_steps ls init s one_init eq_refl Hn H). Qed.

Example C13_example : exists s,
  reach [LStart true; LSend (MUser 1); LCmdDone (MBatch [MUser 2; MSeq [MUser 3]]); LEnq 1; LEnq 0;
         LTake 0; LPush 0; LPush 0; LTake 0; LUpdDone 0 false; LTake 0; LUpdDone 0 true; LTake 0; LPush 0; LTake 0] s
  /\ updates s = [1; 2; 3] /\ accepted s = [MBatch [MUser 2; MSeq [MUser 3]]; MUser 1] /\ queue s = [].
Proof. eexists. split; [reflexivity|]. repeat split. Qed.

(* ---------- C14 ---------- *)

(** As long as the messages in the program (queued or being unpacked, counted at all nesting
    levels) number at most the queue's capacity and none is a quit, the loop never blocks: it
    can act whenever it has anything to do, it always gets to rest, and when it rests the queue
    is empty and Update has seen every accepted message. *)
Theorem C14_loop_progress s :
  quiet s -> queue s <> [] \/ loops s <> [Idle] ->
  exists l s', loop_label l = true /\ step s l = Some s'.
Proof. exact (quiet_progress s). Qed.

Theorem C14_loop_drains ls s ls2 s2 :
  reach ls s -> quiet s -> forallb loop_label ls2 = true -> steps s ls2 = Some s2 ->
  (length ls2 <= 3 * cap)%nat /\
  ((forall l s3, loop_label l = true -> step s2 l = Some s3 -> False) ->
   queue s2 = [] /\ loops s2 = [Idle] /\ Permutation (updates s2) (flat_map leaves (accepted s))).
Proof.
  intros Hr Hq Hf Hs. split.
  - destruct (quiet_steps ls2 s s2 Hq Hf Hs) as [_ B].
    destruct Hq as (lk & Hl & Hnp & _ & _ & Hw). unfold measure, weight in *. rewrite Hl in *. unfold cap in *.
    pose proof (sizes_len (queue s)).
    cbn [flat_map] in Hw. destruct lk as [|r|]; cbn [in_hand app] in Hw; rewrite ?app_nil_r, ?sizes_nil in Hw;
      [lia|lia|]. 
    destruct ls2 as [|[] ls2]; cbn [length]; try lia; cbn in Hf, Hs; try discriminate.
    all: destruct (queue s) eqn:Eq; cbn [length] in *; try lia.
    all: destruct s as [q0 l0 r0 w0 c0 e0 h0 u0]; cbn [loops queue] in *; subst; cbn [sizes fold_right] in *; lia.
  - intros Hm. exact (drained s ls2 s2 (inv_steps ls init s inv_init Hr) Hq Hf Hs Hm).
Qed.

Example C14_example : exists s, reach [LStart false; LSend (MBatch (map MUser (map Z.of_nat (seq 0 98)))); LEnq 0; LTake 0] s /\ quiet s.
Proof.
  eexists. split; [reflexivity|]. eexists. split; [reflexivity|]. split; [discriminate|].
  split; [reflexivity|]. split; [reflexivity|]. apply Nat.leb_le. reflexivity.
Qed.

(** A loop stuck for good: it is re-enqueuing into a full queue that nobody else empties. *)
Definition wedged (s : st) : Prop :=
  exists m r, loops s = [Pushing (m :: r)] /\ length (queue s) = cap.

Lemma wedged_step s l s' : wedged s -> running s = true -> l <> LStopTimeout ->
  step s l = Some s' -> wedged s' /\ running s' = true /\ handled s' = handled s /\ updates s' = updates s.
Proof.
  intros (m & r & Hl & Hq) Hrun Hne Hs. destruct s as [q ls run w c ent han upd].
  cbn [loops queue running handled updates] in *. subst ls run.
  assert (F : (length q <? cap)%nat = false) by (rewrite Hq; reflexivity).
  destruct l as [wc|n|n|n|i|i|k|k wc|k|k|i| |]; cbn [step] in Hs; rewrite ?F in Hs;
    try (destruct k as [|[|k]]; cbn in Hs; discriminate); try discriminate; try congruence.
  all: try (destruct k as [|[|k]]; cbn [nth_error] in Hs; rewrite ?F in Hs; discriminate).
  all: repeat match type of Hs with
       | context [match ?x with _ => _ end] => destruct x; try discriminate
       end; apply some_inj in Hs; subst s'; cbn; repeat split; auto; exists m, r; auto.
Qed.

(** Refuted in general: a batch with more than 100 members (or a smaller one arriving while
    the queue is full) blocks the loop for ever, in every continuation. *)
Theorem C151_batch_wedges_loop_refuted : exists ls s, reach ls s /\ no_stop_timeout ls /\ wedged s /\
  forall ls2 s2, no_stop_timeout ls2 -> steps s ls2 = Some s2 ->
    updates s2 = updates s /\ handled s2 = handled s /\ queue s2 <> [].
Proof.
  exists ([LStart false; LSend (MBatch (repeat (MUser 7) 101)); LEnq 0; LTake 0] ++ repeat (LPush 0) 100).
  eexists. split; [vm_compute; reflexivity|]. split.
  { intros H. apply in_app_or in H. destruct H as [H|H].
    - cbn in H. repeat destruct H as [H|H]; try discriminate; auto.
    - apply repeat_spec in H. discriminate. }
  match goal with |- wedged ?S /\ _ => set (S0 := S) end.
  assert (W : wedged S0) by (eexists _, _; split; reflexivity).
  assert (R : running S0 = true) by reflexivity.
  split; [exact W|].
  intros ls2. clearbody S0. revert S0 W R. induction ls2 as [|l ls2 IH]; intros S0 W R s2 Hn Hs; cbn in Hs.
  - apply some_inj in Hs. subst s2. split; auto. split; auto. destruct W as (m & r & _ & H). intros E. rewrite E in H. discriminate.
  - destruct (step S0 l) eqn:E; [|discriminate].
    destruct (wedged_step S0 l s W R ltac:(intros ->; apply Hn; left; auto) E) as (W' & R' & H1 & H2).
    destruct (IH s W' R' s2 ltac:(intros H; apply Hn; right; auto) Hs) as (A & B & C).
    rewrite A, B. auto.
Qed.

(* ---------- C15 ---------- *)

(** Once the loop takes a quit message it is gone: Update is never called again (until the
    program is started anew), whatever else happens. *)
Theorem C15_quit_message_stops ls s k s1 ls2 s2 q :
  reach ls s -> no_stop_timeout ls ->
  queue s = MQuit :: q -> step s (LTake k) = Some s1 ->
  forallb (fun l => negb (is_start l)) ls2 = true -> steps s1 ls2 = Some s2 ->
  running s1 = false /\ loops s2 = [] /\ updates s2 = updates s.
Proof.
  intros Hr Hn Hq Hs Hf Hs2. pose proof (one_steps ls init s one_init Hn Hr) as [O1 O2].
  destruct s as [q0 l0 run w c ent han upd]. cbn [queue] in Hq. subst q0. cbn [step loops running] in *.
  destruct (nth_error l0 k) as [[]|] eqn:E; try discriminate. apply some_inj in Hs. subst s1.
  assert (R : remove_nth k l0 = []).
  { destruct l0 as [|a [|]]; cbn in O2; try lia; destruct k as [|[|]]; cbn in E; try discriminate; reflexivity. }
  rewrite R in Hs2. apply dead_steps in Hs2; [destruct Hs2 as [A B]; cbn in B; auto|reflexivity|exact Hf].
Qed.

(** Quit() while the loop is waiting at its select, with no command or key waiting to be
    queued, always makes the loop exit. *)
Theorem C15_quit_call_stops_idle_loop ls s :
  reach ls s -> no_stop_timeout ls -> loops s = [Idle] -> existsb hears_quit (waiting s) = false ->
  (exists s1, step s (LQuitLoop 0) = Some s1 /\ loops s1 = [] /\ running s1 = false) /\
  step s LQuitLost = None /\ forall i, step s (LQuitWait i) = None.
Proof.
  intros _ _ Hl Hw. destruct s as [q l0 run w c ent han upd]. cbn [loops waiting] in *. subst l0. cbn [step].
  split; [eexists; split; [reflexivity|]; split; reflexivity|].
  split; [reflexivity|]. intros i. destruct (nth_error w i) eqn:E; [|reflexivity].
  apply nth_error_In in E. destruct (hears_quit p) eqn:F; [|reflexivity].
  assert (existsb hears_quit w = true) by (apply existsb_exists; eauto). congruence.
Qed.

Example C15_example : exists s s1, reach [LStart true; LSend MQuit; LCmdDone (MUser 4); LEnq 0; LEnq 0] s
  /\ step s (LTake 0) = Some s1 /\ queue s = MQuit :: [MUser 4].
Proof. eexists _, _. split; [reflexivity|]. split; reflexivity. Qed.

(** Refuted: a Quit() call during an Update is silently lost — the program goes on and
    handles further messages. *)
Theorem C152_quit_during_update_refuted : exists ls s s1,
  reach ls s /\ no_stop_timeout ls /\ running s = true /\ step s LQuitLost = Some s1 /\
  (forall k, step s (LQuitLoop k) = None) /\ (forall i, step s (LQuitWait i) = None) /\
  exists ls2 s2, steps s1 ls2 = Some s2 /\ updates s2 = updates s1 ++ [2] /\ running s2 = true.
Proof.
  exists [LStart false; LSend (MUser 1); LEnq 0; LTake 0]. eexists _, _.
  split; [reflexivity|]. split; [intros H; cbn in H; repeat destruct H as [H|H]; try discriminate; auto|].
  split; [reflexivity|]. split; [reflexivity|]. split; [intros [|[|k]]; reflexivity|]. split; [intros [|i]; reflexivity|].
  exists [LUpdDone 0 false; LSend (MUser 2); LEnq 0; LTake 0]. eexists. split; [reflexivity|]. split; reflexivity.
Qed.

(** Refuted: a Quit() call can be received by a command goroutine that is waiting for room in
    the queue instead of by the loop; that command's message is dropped and the program runs on. *)
Theorem C153_quit_stolen_by_command_refuted : exists ls s i s1,
  reach ls s /\ no_stop_timeout ls /\ loops s = [Idle] /\ nth_error (waiting s) i = Some (FromCmd, MUser 9) /\
  step s (LQuitWait i) = Some s1 /\ running s1 = true /\ loops s1 = [Idle] /\ waiting s1 = [].
Proof.
  exists ([LStart true] ++ flat_map (fun _ => [LSend (MUser 1); LEnq 0]) (seq 0 100) ++ [LCmdDone (MUser 9)]).
  eexists _, 0%nat, _. split; [vm_compute; reflexivity|]. split.
  { intros H. apply in_app_or in H. destruct H as [H|H]; [cbn in H; destruct H; [discriminate|auto]|].
    apply in_app_or in H. destruct H as [H|H].
    - apply in_flat_map in H as (x & _ & H). cbn in H. repeat destruct H as [H|H]; try discriminate; auto.
    - cbn in H. destruct H; [discriminate|auto]. }
  repeat split.
Qed.

(* ---------- C16 ---------- *)

(** Without a Stop() that timed out there is at most one event loop at any time, running is
    reported exactly while it exists, a second Run/Start is refused while it exists and starts
    exactly one loop when none does. *)
Theorem C16_single_loop ls s : reach ls s -> no_stop_timeout ls ->
  (length (loops s) <= 1)%nat /\ (running s = true <-> loops s <> []) /\
  (loops s <> [] -> forall wc, step s (LStart wc) = None) /\
  (loops s = [] -> forall wc, exists s1, step s (LStart wc) = Some s1 /\ loops s1 = [Idle] /\ running s1 = true /\
     queue s1 = queue s).
Proof.
  intros Hr Hn. pose proof (one_steps ls init s one_init Hn Hr) as [O1 O2]. split; auto.
  assert (E : running s = true <-> loops s <> []).
  { rewrite O1. destruct (loops s) as [|a l]; cbn; split; intros; try discriminate; auto. }
  split; auto. split.
  - intros Hl wc. apply E in Hl. destruct s as [q l0 run w c ent han upd]. cbn [running] in Hl. subst run. reflexivity.
  - intros Hl wc. destruct (running s) eqn:Er; [exfalso; apply (proj1 E eq_refl); exact Hl|].
    destruct s as [q l0 run w c ent han upd]. cbn [running loops] in *. subst. cbn [step]. eexists. repeat split.
Qed.

Example C16_example : exists s, reach [LStart true; LQuitLoop 0; LStart false; LSend (MUser 3); LEnq 0; LTake 0] s /\ loops s = [Updating].
Proof. eexists. split; reflexivity. Qed.

(** Refuted in general: when Stop() gives up after its second (Update is slow), the program
    claims not to be running although its loop is alive; starting again gives two loops that
    call Update on the same program concurrently. *)
Theorem C154_two_loops_refuted : exists ls s, reach ls s /\ loops s = [Updating; Updating].
Proof.
  exists [LStart false; LSend (MUser 1); LEnq 0; LTake 0; LStopTimeout; LStart false; LSend (MUser 2); LEnq 0; LTake 1].
  eexists. split; reflexivity.
Qed.

Print Assumptions C13_fifo. Print Assumptions C13_update_each_once_in_order. Print Assumptions C13_none_lost. Print Assumptions C13_batch_members_in_order.
Print Assumptions C14_loop_progress. Print Assumptions C14_loop_drains. Print Assumptions C151_batch_wedges_loop_refuted. Print Assumptions C15_quit_message_stops.
Print Assumptions C15_quit_call_stops_idle_loop. Print Assumptions C152_quit_during_update_refuted. Print Assumptions C153_quit_stolen_by_command_refuted. Print Assumptions C16_single_loop.
Print Assumptions C154_two_loops_refuted.
