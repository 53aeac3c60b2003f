(** Proofs about the event loop (C13-C16). *)
From Verif Require Import Prelude TeaModel TeaSpec.

Ltac break_step H :=
  repeat match type of H with
  | context [match ?x with _ => _ end] => destruct x eqn:?; try discriminate H
  | Some _ = Some _ => apply some_inj in H
  end.

Lemma steps_app a : forall s b, steps s (a ++ b) = match steps s a with Some s' => steps s' b | None => None end.
Proof. induction a as [|l a IH]; intros s b; cbn; [reflexivity|]. destruct (step s l); auto. Qed.

Lemma nth_error_set_nth {A} (l : list A) k v : (k < length l)%nat -> nth_error (set_nth l k v) k = Some v.
Proof. revert k. induction l; intros [|k] Hk; cbn in *; try lia; auto. apply IHl. lia. Qed.

(** set_nth as list surgery *)
Lemma split_nth {A} (l : list A) k x : nth_error l k = Some x ->
  exists a b, l = a ++ x :: b /\ (forall v, set_nth l k v = a ++ v :: b) /\ remove_nth k l = a ++ b /\ length a = k.
Proof.
  revert k. induction l as [|h l IH]; intros [|k] Hn; cbn in *; try discriminate.
  - apply some_inj in Hn. subst. exists [], l. auto.
  - destruct (IH k Hn) as (a & b & -> & H2 & H3 & H4). exists (h :: a), b.
    repeat split; auto; cbn.
    + intros v. rewrite H2. reflexivity.
    + rewrite H3. reflexivity.
    + lia.
Qed.

Lemma leaves_batch l : leaves (MBatch l) = flat_map leaves l.
Proof. induction l as [|x l IH]; [reflexivity|]. cbn in *. rewrite <- ?IH. reflexivity. Qed.
Lemma leaves_seq l : leaves (MSeq l) = flat_map leaves l.
Proof. induction l as [|x l IH]; [reflexivity|]. cbn in *. rewrite <- ?IH. reflexivity. Qed.

Lemma in_hand_pushing l : in_hand (pushing l) = l.
Proof. destruct l; reflexivity. Qed.

Definition hand (ls : list lstate) : list Z := flat_map (fun l => flat_map leaves (in_hand l)) ls.

Record inv (s : st) : Prop := Inv {
  i_fifo : map snd (entered s) = handled s ++ queue s;
  i_upd : updates s = flat_map user (handled s);
  i_perm : Permutation (flat_map leaves (accepted s))
             (updates s ++ flat_map leaves (queue s) ++ hand (loops s)) }.

Lemma inv_init : inv init.
Proof. constructor; try reflexivity. Qed.

Lemma accepted_snoc_ext ent m : map snd (filter (fun e : bool * msg => negb (fst e)) (ent ++ [(false, m)])) =
  map snd (filter (fun e => negb (fst e)) ent) ++ [m].
Proof. rewrite filter_app, map_app. reflexivity. Qed.
Lemma accepted_snoc_loop ent m : map snd (filter (fun e : bool * msg => negb (fst e)) (ent ++ [(true, m)])) =
  map snd (filter (fun e => negb (fst e)) ent).
Proof. rewrite filter_app, map_app. cbn. apply app_nil_r. Qed.
Lemma reentered_snoc_ext ent m : map snd (filter (fun e : bool * msg => fst e) (ent ++ [(false, m)])) =
  map snd (filter (fun e => fst e) ent).
Proof. rewrite filter_app, map_app. cbn. apply app_nil_r. Qed.
Lemma reentered_snoc_loop ent m : map snd (filter (fun e : bool * msg => fst e) (ent ++ [(true, m)])) =
  map snd (filter (fun e => fst e) ent) ++ [m].
Proof. rewrite filter_app, map_app. reflexivity. Qed.

Lemma hand_app a b : hand (a ++ b) = hand a ++ hand b.
Proof. apply flat_map_app. Qed.
Lemma hand_cons l b : hand (l :: b) = flat_map leaves (in_hand l) ++ hand b.
Proof. reflexivity. Qed.

Lemma perm_mid {A} (u q h1 x h2 : list A) : Permutation (u ++ (q ++ x) ++ h1 ++ h2) (u ++ q ++ h1 ++ x ++ h2).
Proof.
  rewrite <- !app_assoc. do 2 apply Permutation_app_head.
  rewrite !app_assoc. apply Permutation_app_tail. apply Permutation_app_comm.
Qed.

Lemma perm_front {A} (l q a b : list A) : Permutation ((l ++ q) ++ a ++ b) (q ++ a ++ l ++ b).
Proof.
  rewrite <- app_assoc. rewrite (app_assoc q a b), (app_assoc q a (l ++ b)).
  apply Permutation_app_swap_app.
Qed.

Lemma inv_step s l s' : inv s -> step s l = Some s' -> inv s'.
Proof.
  intros [I1 I2 I3] Hs. destruct s as [q ls run w c ent han upd]. unfold accepted in I3. cbn [entered handled queue updates loops] in *.
  destruct l; cbn [step] in Hs.
  - break_step Hs; subst s'; (constructor; cbn [entered handled queue updates loops accepted]; auto;
      unfold accepted; cbn [entered]; rewrite hand_app; cbn; rewrite app_nil_r; auto).
  - break_step Hs; subst s'; constructor; auto.
  - break_step Hs; subst s'; constructor; auto.
  - break_step Hs; subst s'; constructor; auto.
  - destruct (nth_error w i) as [[sr m]|] eqn:En; [|discriminate]. destruct (length q <? cap)%nat; [|discriminate].
    apply some_inj in Hs. subst s'. constructor; cbn [entered handled queue updates loops]; auto.
    + rewrite map_app, I1. cbn. rewrite app_assoc. reflexivity.
    + unfold accepted. cbn [entered]. rewrite accepted_snoc_ext, !flat_map_app. cbn [flat_map].
      rewrite app_nil_r, I3. rewrite <- !app_assoc. do 2 apply Permutation_app_head. apply Permutation_app_comm.
  - break_step Hs; subst s'; constructor; auto.
  - destruct (nth_error ls k) as [lk|] eqn:En; [|discriminate]. destruct lk; try discriminate.
    destruct q as [|m q]; [discriminate|].
    destruct (split_nth ls k Idle En) as (a & b & Els & Hset & Hrem & _).
    assert (Hh : hand ls = hand a ++ hand b) by (rewrite Els, hand_app, hand_cons; reflexivity).
    destruct m as [n| |l|l]; apply some_inj in Hs; subst s'; constructor; cbn [entered handled queue updates loops]; auto;
      try (rewrite I1, <- app_assoc; reflexivity);
      try (rewrite flat_map_app, I2; cbn; rewrite ?app_nil_r; reflexivity);
      unfold accepted; cbn [entered]; rewrite I3; cbn [flat_map].
    + rewrite Hset, hand_app, hand_cons, Hh. cbn [in_hand flat_map app]. rewrite <- !app_assoc. reflexivity.
    + rewrite Hrem, hand_app, Hh. reflexivity.
    + rewrite Hset, hand_app, hand_cons, in_hand_pushing, Hh.
      rewrite leaves_batch.
      apply Permutation_app_head, perm_front.
    + rewrite Hset, hand_app, hand_cons, in_hand_pushing, Hh.
      rewrite leaves_seq.
      apply Permutation_app_head, perm_front.
  - destruct (nth_error ls k) as [lk|] eqn:En; [|discriminate]. destruct lk; try discriminate.
    destruct (split_nth ls k Updating En) as (a & b & Els & Hset & Hrem & _).
    apply some_inj in Hs; subst s'; constructor; cbn [entered handled queue updates loops]; auto.
    unfold accepted; cbn [entered]. rewrite I3, Hset, Els, !hand_app, !hand_cons. reflexivity.
  - destruct (nth_error ls k) as [lk|] eqn:En; [|discriminate]. destruct lk as [|[|m r]|]; try discriminate.
    destruct (length q <? cap)%nat; [|discriminate].
    destruct (split_nth ls k _ En) as (a & b & Els & Hset & Hrem & _).
    apply some_inj in Hs; subst s'; constructor; cbn [entered handled queue updates loops]; auto.
    + rewrite map_app, I1. cbn. rewrite app_assoc. reflexivity.
    + unfold accepted; cbn [entered]. rewrite accepted_snoc_loop, I3, Hset, Els, !hand_app, !hand_cons, in_hand_pushing.
      cbn [in_hand flat_map]. rewrite flat_map_app. cbn [flat_map]. rewrite app_nil_r.
      rewrite <- !app_assoc. rewrite <- perm_mid with (x := leaves m). rewrite <- !app_assoc. reflexivity.
  - destruct (nth_error ls k) as [lk|] eqn:En; [|discriminate]. destruct lk; try discriminate.
    destruct (split_nth ls k _ En) as (a & b & Els & Hset & Hrem & _).
    apply some_inj in Hs; subst s'; constructor; cbn [entered handled queue updates loops]; auto.
    unfold accepted; cbn [entered]. rewrite I3, Hrem, Els, !hand_app, hand_cons. reflexivity.
  - break_step Hs; subst s'; constructor; auto.
  - break_step Hs; subst s'; constructor; auto.
  - break_step Hs; subst s'; constructor; auto.
Qed.

Lemma inv_steps ls : forall s s', inv s -> steps s ls = Some s' -> inv s'.
Proof.
  induction ls as [|l ls IH]; intros s s' Hi Hs; cbn in Hs.
  - apply some_inj in Hs. subst; auto.
  - destruct (step s l) eqn:E; [|discriminate]. eapply IH; [|exact Hs]. eapply inv_step; eauto.
Qed.

(* ---------- one loop at a time ---------- *)
Record one (s : st) : Prop := One {
  o_run : running s = negb (Nat.eqb (length (loops s)) 0);
  o_le : (length (loops s) <= 1)%nat }.

Lemma set_nth_len {A} (l : list A) k v : length (set_nth l k v) = length l.
Proof. apply set_nth_length. Qed.

Lemma one_step s l s' : one s -> l <> LStopTimeout -> step s l = Some s' -> one s'.
Proof.
  intros [O1 O2] Hl Hs. destruct s as [q ls run w c ent han upd]. cbn [running loops] in *.
  assert (Hex : forall k x, nth_error ls k = Some x -> length ls = 1%nat).
  { intros k x Hk. assert (k < length ls)%nat by (apply nth_error_Some; congruence). lia. }
  assert (Hrm : forall k x, nth_error ls k = Some x -> remove_nth k ls = []).
  { intros k x Hk. pose proof (Hex k x Hk). destruct ls as [|a [|]]; try discriminate.
    destruct k; [reflexivity|destruct k; discriminate]. }
  destruct l; cbn [step] in Hs; try congruence; break_step Hs; subst s';
    constructor; cbn [running loops]; rewrite ?set_nth_length, ?app_length; auto;
    try (erewrite Hrm by eauto; cbn; auto; fail).
  all: try (destruct ls; [reflexivity|discriminate]);
  try (destruct ls; [cbn; lia|discriminate]).
Qed.

Lemma one_steps ls : forall s s', one s -> no_stop_timeout ls -> steps s ls = Some s' -> one s'.
Proof.
  induction ls as [|l ls IH]; intros s s' Ho Hn Hs; cbn in Hs.
  - apply some_inj in Hs. subst; auto.
  - destruct (step s l) eqn:E; [|discriminate]. eapply IH; [| |exact Hs].
    + eapply one_step; eauto. intros ->. apply Hn. left; auto.
    + intros Hin. apply Hn. right; auto.
Qed.

Lemma one_init : one init.
Proof. constructor; cbn; auto. Qed.

(** Members of batches enter the queue in order (single loop). *)
Definition ordered (s : st) : Prop :=
  reentered s ++ flat_map in_hand (loops s) = flat_map members (handled s).

Lemma ordered_step s l s' : one s -> l <> LStopTimeout -> ordered s -> step s l = Some s' -> ordered s'.
Proof.
  intros [O1 O2] Hl Ho Hs. destruct s as [q ls run w c ent han upd]. unfold ordered, reentered in *.
  cbn [running loops entered handled] in *.
  assert (Hex : forall k x, nth_error ls k = Some x -> ls = [x] /\ k = O).
  { intros k x Hk. assert (k < length ls)%nat by (apply nth_error_Some; congruence).
    destruct ls as [|y [|]]; cbn in *; try lia. assert (k = O) by lia. subst k. cbn in Hk. split; congruence. }
  destruct l; cbn [step] in Hs; try congruence.
  - break_step Hs; subst s'; cbn [loops entered handled]; rewrite flat_map_app; cbn; rewrite app_nil_r; auto.
  - break_step Hs; subst s'; auto.
  - break_step Hs; subst s'; auto.
  - break_step Hs; subst s'; auto.
  - break_step Hs; subst s'. cbn [loops entered handled]. rewrite reentered_snoc_ext. auto.
  - break_step Hs; subst s'; auto.
  - destruct (nth_error ls k) as [lk|] eqn:En; [|discriminate]. destruct lk; try discriminate.
    destruct q as [|m q]; [discriminate|]. destruct (Hex _ _ En) as [-> ->].
    destruct m as [n| |l|l]; apply some_inj in Hs; subst s'; cbn [loops entered handled];
      rewrite flat_map_app, <- Ho; cbn; rewrite ?app_nil_r, ?in_hand_pushing, ?app_nil_r; auto.
  - destruct (nth_error ls k) as [lk|] eqn:En; [|discriminate]. destruct lk; try discriminate.
    destruct (Hex _ _ En) as [-> ->]. apply some_inj in Hs; subst s'. cbn in *. auto.
  - destruct (nth_error ls k) as [lk|] eqn:En; [|discriminate]. destruct lk as [|[|m r]|]; try discriminate.
    destruct (length q <? cap)%nat; [|discriminate]. destruct (Hex _ _ En) as [-> ->].
    apply some_inj in Hs; subst s'. cbn [loops entered handled set_nth flat_map] in *.
    rewrite reentered_snoc_loop, in_hand_pushing, <- app_assoc. cbn in *. auto.
  - destruct (nth_error ls k) as [lk|] eqn:En; [|discriminate]. destruct lk; try discriminate.
    destruct (Hex _ _ En) as [-> ->]. apply some_inj in Hs; subst s'. cbn in *. auto.
  - break_step Hs; subst s'; auto.
  - break_step Hs; subst s'; auto.
Qed.

Lemma ordered_steps ls : forall s s', one s -> ordered s -> no_stop_timeout ls -> steps s ls = Some s' -> ordered s'.
Proof.
  induction ls as [|l ls IH]; intros s s' Ho Hord Hn Hs; cbn in Hs.
  - apply some_inj in Hs. subst; auto.
  - destruct (step s l) eqn:E; [|discriminate].
    assert (l <> LStopTimeout) by (intros ->; apply Hn; left; auto).
    eapply IH; [| | |exact Hs].
    + eapply one_step; eauto.
    + eapply ordered_step; eauto.
    + intros Hin. apply Hn. right; auto.
Qed.

(* ---------- after the loop has ended ---------- *)
Lemma dead_step s l s' : loops s = [] -> is_start l = false -> step s l = Some s' ->
  loops s' = [] /\ updates s' = updates s.
Proof.
  intros Hd Hl Hs. destruct s as [q ls run w c ent han upd]. cbn [loops] in Hd. subst ls.
  assert (Hn : forall k : nat, nth_error (@nil lstate) k = None) by (intros []; reflexivity).
  destruct l; cbn [step] in Hs; try discriminate; rewrite ?Hn in Hs; try discriminate;
    break_step Hs; subst s'; auto.
Qed.
Lemma dead_steps ls : forall s s', loops s = [] -> forallb (fun l => negb (is_start l)) ls = true ->
  steps s ls = Some s' -> loops s' = [] /\ updates s' = updates s.
Proof.
  induction ls as [|l ls IH]; intros s s' Hd Hf Hs; cbn in Hs, Hf.
  - apply some_inj in Hs. subst; auto.
  - destruct (step s l) eqn:E; [|discriminate]. apply andb_prop in Hf as [Hf1 Hf2].
    destruct (dead_step s l s0 Hd ltac:(destruct (is_start l); auto; discriminate) E) as [D1 D2].
    destruct (IH s0 s' D1 Hf2 Hs) as [E1 E2]. split; congruence.
Qed.

(* ---------- draining ---------- *)
Lemma sizes_app a b : sizes (a ++ b) = (sizes a + sizes b)%nat.
Proof. unfold sizes. induction a; cbn; lia. Qed.
Lemma size_batch l : size (MBatch l) = S (sizes l).
Proof. cbn. f_equal. Qed.
Lemma size_seq l : size (MSeq l) = S (sizes l).
Proof. cbn. f_equal. Qed.
Lemma size_pos m : (1 <= size m)%nat.
Proof. destruct m; cbn; lia. Qed.
Lemma sizes_len l : (length l <= sizes l)%nat.
Proof. unfold sizes. induction l as [|m l IH]; cbn; [lia|]. pose proof (size_pos m). lia. Qed.

(** Strictly decreasing along loop steps. *)
Definition measure (s : st) : nat :=
  (3 * sizes (queue s) - length (queue s) + match loops s with [Updating] => 1 | [Pushing r] => 3 * sizes r | _ => 0 end)%nat.

Lemma no_quit_batch l : no_quit (MBatch l) = forallb no_quit l.
Proof. induction l as [|x l IH]; [reflexivity|]. cbn in *. rewrite <- ?IH. reflexivity. Qed.
Lemma no_quit_seq l : no_quit (MSeq l) = forallb no_quit l.
Proof. induction l as [|x l IH]; [reflexivity|]. cbn in *. rewrite <- ?IH. reflexivity. Qed.


Lemma pushing_not_nil l : pushing l = Pushing [] -> False.
Proof. destruct l; discriminate. Qed.

Lemma sizes_cons m l : sizes (m :: l) = (size m + sizes l)%nat.
Proof. reflexivity. Qed.
Lemma sizes_nil : sizes [] = 0%nat.
Proof. reflexivity. Qed.

Lemma quiet_step s l s' : quiet s -> loop_label l = true -> step s l = Some s' ->
  quiet s' /\ (measure s' < measure s)%nat.
Proof.
  intros (lk & Hls & Hnp & Hq & Hh & Hw) Hl Hs. destruct s as [q ls run w c ent han upd].
  unfold weight, measure in *. cbn [loops queue] in *. subst ls.
  destruct l; try discriminate; cbn [step] in Hs; destruct k as [|k]; cbn [nth_error] in Hs; try (destruct k; discriminate).
  - destruct lk; try discriminate. destruct q as [|m q]; [discriminate|].
    cbn [forallb] in Hq. apply andb_prop in Hq as [Hm Hq].
    cbn [flat_map in_hand app] in Hw. rewrite sizes_cons, sizes_nil in *.
    destruct m as [n| |l|l]; apply some_inj in Hs; subst s'; try discriminate; cbn [set_nth loops queue].
    + split; [|cbn [size length]; pose proof (sizes_len q); lia].
      exists Updating. split; auto. split; [discriminate|]. split; auto. split; auto.
      unfold weight. cbn [queue loops flat_map in_hand app]. rewrite sizes_nil. lia.
    + rewrite no_quit_batch in Hm. rewrite size_batch in *. split.
      * exists (pushing l). split; auto. split; [apply pushing_not_nil|]. split; auto.
        rewrite in_hand_pushing. split; auto. unfold weight. cbn [queue loops flat_map]. rewrite in_hand_pushing, app_nil_r. lia.
      * pose proof (sizes_len l). pose proof (sizes_len q). destruct l as [|x l]; cbn [pushing length]; lia.
    + rewrite no_quit_seq in Hm. rewrite size_seq in *. split.
      * exists (pushing l). split; auto. split; [apply pushing_not_nil|]. split; auto.
        rewrite in_hand_pushing. split; auto. unfold weight. cbn [queue loops flat_map]. rewrite in_hand_pushing, app_nil_r. lia.
      * pose proof (sizes_len l). pose proof (sizes_len q). destruct l as [|x l]; cbn [pushing length]; lia.
  - destruct lk; try discriminate. apply some_inj in Hs; subst s'. cbn [set_nth loops queue]. split; [|lia].
    exists Idle. split; auto. split; [discriminate|]. auto.
  - destruct lk as [|[|m r]|]; try discriminate. destruct (length q <? cap)%nat; [|discriminate].
    apply some_inj in Hs; subst s'. cbn [set_nth loops queue]. cbn [in_hand flat_map app] in *.
    rewrite app_nil_r in Hw. cbn [forallb] in Hh. apply andb_prop in Hh as [Hm Hr].
    rewrite sizes_cons in *.
    split.
    + exists (pushing r). split; auto. split; [apply pushing_not_nil|].
      split; [cbn [queue]; rewrite forallb_app, Hq; cbn [forallb]; rewrite Hm; auto|]. rewrite in_hand_pushing. split; auto.
      unfold weight. cbn [queue loops flat_map]. rewrite in_hand_pushing, app_nil_r, sizes_app, sizes_cons, sizes_nil. lia.
    + rewrite sizes_app, sizes_cons, sizes_nil, app_length. cbn [length].
      pose proof (sizes_len q). pose proof (size_pos m).
      destruct r as [|x r']; cbn [pushing]; rewrite ?sizes_nil; lia.
Qed.

(** The loop can always go on. *)
Lemma quiet_progress s : quiet s -> queue s <> [] \/ loops s <> [Idle] ->
  exists l s', loop_label l = true /\ step s l = Some s'.
Proof.
  intros (lk & Hls & Hnp & Hq & Hh & Hw) Hne. destruct s as [q ls run w c ent han upd].
  unfold weight in Hw. cbn [loops queue] in *. subst ls.
  destruct lk as [|r|].
  - destruct q as [|m q]; [exfalso; destruct Hne; congruence|].
    exists (LTake 0). cbn [step nth_error]. destruct m; eexists; split; reflexivity.
  - destruct r as [|m r]; [exfalso; apply Hnp; reflexivity|]. exists (LPush 0). cbn [step nth_error].
    cbn [flat_map in_hand app] in Hw. rewrite app_nil_r in Hw. cbn [sizes fold_right] in Hw.
    pose proof (size_pos m). pose proof (sizes_len q). fold (sizes r) in Hw.
    destruct (length q <? cap)%nat eqn:E; [|lia]. eexists; split; reflexivity.
  - exists (LUpdDone 0 false). eexists; split; reflexivity.
Qed.

Lemma quiet_steps ls : forall s s', quiet s -> forallb loop_label ls = true -> steps s ls = Some s' ->
  quiet s' /\ (length ls + measure s' <= measure s)%nat.
Proof.
  induction ls as [|l ls IH]; intros s s' Hq Hf Hs; cbn in Hs, Hf.
  - apply some_inj in Hs. subst. split; auto.
  - destruct (step s l) eqn:E; [|discriminate]. apply andb_prop in Hf as [Hf1 Hf2].
    destruct (quiet_step s l s0 Hq Hf1 E) as [Q1 Q2]. destruct (IH s0 s' Q1 Hf2 Hs) as [R1 R2].
    split; auto. cbn [length]. lia.
Qed.

Lemma loop_accepted l s s' : loop_label l = true -> step s l = Some s' -> accepted s' = accepted s.
Proof.
  intros Hl Hs. destruct s as [q ls run w c ent han upd]. unfold accepted.
  destruct l; try discriminate; cbn [step] in Hs; break_step Hs; subst s'; cbn [entered]; auto.
  apply accepted_snoc_loop.
Qed.
Lemma loop_accepted_steps ls : forall s s', forallb loop_label ls = true -> steps s ls = Some s' -> accepted s' = accepted s.
Proof.
  induction ls as [|l ls IH]; intros s s' Hf Hs; cbn in Hs, Hf.
  - apply some_inj in Hs. subst; auto.
  - destruct (step s l) eqn:E; [|discriminate]. apply andb_prop in Hf as [Hf1 Hf2].
    rewrite (IH s0 s' Hf2 Hs). eapply loop_accepted; eauto.
Qed.

Lemma drained s ls s' : inv s -> quiet s -> forallb loop_label ls = true -> steps s ls = Some s' ->
  (forall l s'', loop_label l = true -> step s' l = Some s'' -> False) ->
  queue s' = [] /\ loops s' = [Idle] /\ Permutation (updates s') (flat_map leaves (accepted s)).
Proof.
  intros Hi Hq Hf Hs Hmax. destruct (quiet_steps ls s s' Hq Hf Hs) as [Hq' _].
  assert (Hend : queue s' = [] /\ loops s' = [Idle]).
  { destruct (queue s') as [|m q] eqn:Eq.
    - destruct Hq' as (lk & Hl & Hrest). destruct lk as [|r|] eqn:Elk; auto; exfalso;
        (destruct (quiet_progress s') as (lab & s'' & A & B); [exists lk; rewrite Elk; split; auto|right; rewrite Hl; discriminate|eapply Hmax; eauto]).
    - exfalso. destruct (quiet_progress s' Hq' ltac:(left; rewrite Eq; discriminate)) as (l & s'' & A & B). eapply Hmax; eauto. }
  destruct Hend as [E1 E2]. split; auto. split; auto.
  pose proof (inv_steps ls s s' Hi Hs) as [_ _ Hp].
  rewrite (loop_accepted_steps ls s s' Hf Hs), E1, E2 in Hp. cbn in Hp. rewrite app_nil_r in Hp. symmetry. auto.
Qed.
