(** C308, C309: what Send's answer means; what a program that is started again finds. Model: TeaModel. *)
From Verif Require Import Prelude TeaModel TeaSpec TeaProofs TeaProps TeaSourceProps.

(** ** Specification *)
(** After [before], the i-th waiting goroutine is a Send of the message [n]. *)
Definition sending (before : list label) (i : nat) (n : Z) : Prop :=
  exists s, reach before s /\ nth_error (waiting s) i = Some (FromSend, MUser n).
(** The history offers [n] no second time. *)
Definition only_once (ls : list label) (n : Z) : Prop := count_occ Z.eq_dec (flat_map leaves (offered ls)) n = 1%nat.

(** ** Proofs *)
Lemma steps_app a : forall b s, steps s (a ++ b) = match steps s a with Some s' => steps s' b | None => None end.
Proof. induction a as [|l a IH]; intros b s; [reflexivity|]. cbn [app steps]. destruct (step s l); auto. Qed.
Lemma entered_grows s l s' : step s l = Some s' -> exists x, entered s' = entered s ++ x.
Proof.
  intros Hs. destruct s as [q ls run w c ent han upd]. destruct l; cbn [step] in Hs; break_step Hs; subst s'; cbn [entered];
    first [exists []; rewrite app_nil_r; reflexivity | eexists; reflexivity].
Qed.
Lemma entered_grows_steps ls : forall s s', steps s ls = Some s' -> exists x, entered s' = entered s ++ x.
Proof.
  induction ls as [|l ls IH]; intros s s' Hs; cbn [steps] in Hs.
  - apply some_inj in Hs. subst. exists []. rewrite app_nil_r. reflexivity.
  - destruct (step s l) as [s1|] eqn:E; [|discriminate]. destruct (entered_grows _ _ _ E) as [x Hx]. destruct (IH _ _ Hs) as [y Hy].
    exists (x ++ y). rewrite Hy, Hx, app_assoc. reflexivity.
Qed.

(** ** C308 *)
(** Send is accepted exactly when the program is running. *)
Theorem C308_refused_when_not_running : forall s m, step s (LSend m) = None <-> running s = false.
Proof. intros [q ls run w c ent han upd] m. cbn [step running]. destruct run; split; congruence. Qed.

(** A Send in progress ends with its message accepted or with the timeout, and in no other way: quitting the program does not end it. *)
Theorem C308_ends_only_so : forall s l s' i m, step s l = Some s' -> nth_error (waiting s) i = Some (FromSend, m) ->
  l <> LEnq i -> l <> LSendTimeout i -> exists j, nth_error (waiting s') j = Some (FromSend, m).
Proof.
  assert (R : forall (w : list (src * msg)) i j x, nth_error w i = Some x -> j <> i -> exists k, nth_error (remove_nth j w) k = Some x).
  { induction w as [|a w IH]; intros [|i] [|j] x E N; cbn in *; try congruence; try (now destruct N); try (now exists O); try (now exists i).
    destruct (IH i j x E ltac:(congruence)) as [k K]. exists (S k). exact K. }
  assert (A : forall (w : list (src * msg)) i x y, nth_error w i = Some x -> exists k, nth_error (w ++ [y]) k = Some x).
  { intros w i x y E. exists i. rewrite nth_error_app1; [exact E|]. apply nth_error_Some. congruence. }
  intros [q ls run w c ent han upd] l s' i m Hs E N1 N2. cbn [waiting] in E.
  destruct l; cbn [step] in Hs; break_step Hs; subst s'; cbn [waiting]; eauto; try (eapply R; [exact E|]; intros ->; congruence).
  all: eapply R; [exact E|]; intros ->; rewrite E in *; 
    match goal with X : Some _ = Some _ |- _ => injection X as <- end; cbn in *; congruence.
Qed.

(** Send returned nil: the message has been given to Update, or is in the queue or in a batch being unpacked: it is not lost. *)
Theorem C308_nil_not_lost : forall before i n after s, sending before i n -> reach (before ++ LEnq i :: after) s ->
  In n (updates s ++ flat_map leaves (queue s) ++ flat_map (fun l => flat_map leaves (in_hand l)) (loops s)).
Proof.
  intros before i n after s (s0 & Hr0 & Hn) Hr. pose proof (C13_none_lost _ _ Hr) as Hl.
  unfold reach in *. rewrite steps_app, Hr0 in Hr. cbn [steps] in Hr. destruct (step s0 (LEnq i)) as [s1|] eqn:E; [|discriminate].
  eapply Permutation_in; [exact Hl|]. apply in_flat_map. exists (MUser n). split; [|left; reflexivity].
  destruct (entered_grows_steps _ _ _ Hr) as [x Hx]. destruct s0 as [q ls run w c ent han upd]. cbn [step waiting] in *. rewrite Hn in E.
  destruct (length q <? cap)%nat; [|discriminate]. apply some_inj in E. subst s1. cbn [entered] in Hx. unfold accepted. rewrite Hx.
  apply in_map_iff. exists (false, MUser n). split; [reflexivity|]. apply filter_In. split; [|reflexivity].
  rewrite <- app_assoc. apply in_or_app. right. left. reflexivity.
Qed.

(** Send returned the timeout error: Update is never called with the message, whatever happens later. *)
Theorem C308_error_not_delivered : forall before i n after s, sending before i n -> reach (before ++ LSendTimeout i :: after) s ->
  only_once (before ++ LSendTimeout i :: after) n -> ~ In n (updates s).
Proof.
  intros before i n after s (s0 & Hr0 & Hn) Hr Hone Hin.
  assert (Ht : traced (offered before) s0). { apply (traced_steps before [] init s0); [|exact Hr0]. exists []. reflexivity. }
  unfold reach in Hr, Hr0. assert (Hr1 := Hr). rewrite steps_app, Hr0 in Hr1. cbn [steps] in Hr1. destruct (step s0 (LSendTimeout i)) as [s1|] eqn:E; [|discriminate].
  destruct Ht as (lost & Hp). pose proof (remove_perm _ _ _ Hn) as Hw. cbn [snd] in Hw.
  set (os' := accepted s0 ++ map snd (remove_nth i (waiting s0)) ++ lost).
  assert (Hos : Permutation (offered before) (MUser n :: os')).
  { rewrite Hp, Hw. unfold os'. cbn [app]. symmetry. apply Permutation_middle. }
  assert (Ht1 : traced os' s1).
  { exists lost. unfold os'. destruct s0 as [q ls run w c ent han upd]. cbn [step waiting] in *. rewrite Hn in E. apply some_inj in E. subst s1. reflexivity. }
  pose proof (traced_steps after os' s1 s Ht1 Hr1) as (lost2 & Hp2). pose proof (C13_none_lost _ _ Hr) as Hl.
  assert (Hin2 : In n (flat_map leaves (os' ++ offered after))).
  { eapply Permutation_in; [symmetry; exact (Permutation_flat_map leaves Hp2)|]. rewrite flat_map_app. apply in_or_app. left.
    eapply Permutation_in; [symmetry; exact Hl|]. apply in_or_app. auto. }
  unfold only_once in Hone. assert (Hoff : Permutation (flat_map leaves (offered (before ++ LSendTimeout i :: after))) (n :: flat_map leaves (os' ++ offered after))).
  { unfold offered. rewrite flat_map_app. cbn [flat_map offer app]. fold (offered before). fold (offered after).
    rewrite flat_map_app, (Permutation_flat_map leaves Hos). cbn [flat_map leaves app]. rewrite flat_map_app. reflexivity. }
  rewrite (proj1 (Permutation_count_occ Z.eq_dec _ _) Hoff) in Hone. cbn [count_occ] in Hone. destruct (Z.eq_dec n n); [|congruence].
  apply (count_occ_In Z.eq_dec) in Hin2. lia.
Qed.
Example C308_case : let before := [LStart false; LSend (MUser 7); LSend (MUser 8)] in
  sending before 0 7 /\ sending before 1 8 /\ (exists s, reach (before ++ LEnq 0 :: [LTake 0; LUpdDone 0 false; LSendTimeout 0]) s /\ updates s = [7]) /\
  (exists s, reach (before ++ LSendTimeout 1 :: [LEnq 0; LTake 0]) s /\ updates s = [7]) /\ only_once (before ++ LSendTimeout 1 :: [LEnq 0; LTake 0]) 8.
Proof.
  cbn zeta. repeat split; try (eexists; split; [vm_compute; reflexivity|reflexivity]).
Qed.

(** ** C309 *)
(** Refuted: two quit messages are sent, the first ends the run; when the program is started again the second ends
    that run at once: the message sent to the new run before is never given to Update. *)
Theorem C309_fresh_start_refuted : exists ls s s2,
  reach ls s /\ no_stop_timeout ls /\ running s = false /\ loops s = [] /\ waiting s = [] /\ cmds s = 0%nat /\
  steps s [LStart false; LSend (MUser 1); LEnq 0; LTake 0] = Some s2 /\ running s2 = false /\ loops s2 = [] /\ updates s2 = [].
Proof.
  exists [LStart false; LSend MQuit; LEnq 0; LSend MQuit; LEnq 0; LTake 0]. eexists. eexists.
  split; [vm_compute; reflexivity|]. split; [intros H; cbn [In] in H; intuition discriminate|].
  split; [reflexivity|]. split; [reflexivity|]. split; [reflexivity|]. split; [reflexivity|]. split; [vm_compute; reflexivity|]. repeat split.
Qed.

Print Assumptions C308_refused_when_not_running. Print Assumptions C308_ends_only_so. Print Assumptions C308_nil_not_lost. Print Assumptions C308_error_not_delivered.
Print Assumptions C309_fresh_start_refuted.
