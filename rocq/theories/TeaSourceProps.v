(** C285, C286: what Update can be called with. Model: TeaModel. *)
From Verif Require Import Prelude TeaModel TeaSpec TeaProofs TeaProps.

(** ** Specification *)
(** The messages the program was offered: by Send, by the commands' results and by the keyboard. *)
Definition offer (l : label) : list msg := match l with LSend m | LKey m | LCmdDone m => [m] | _ => [] end.
Definition offered (ls : list label) : list msg := flat_map offer ls.

(** ** Proofs *)
Definition traced (offers : list msg) (s : st) : Prop :=
  exists lost, Permutation offers (accepted s ++ map snd (waiting s) ++ lost).

Lemma remove_perm (w : list (src * msg)) i x : nth_error w i = Some x -> Permutation (map snd w) (snd x :: map snd (remove_nth i w)).
Proof.
  intros Hn. destruct (split_nth w i x Hn) as (a & b & -> & _ & -> & _). rewrite !map_app. cbn [map]. symmetry. apply Permutation_middle.
Qed.

Lemma traced_step os s l s' : traced os s -> step s l = Some s' -> traced (os ++ offer l) s'.
Proof.
  intros (lost & Hp) Hs. destruct s as [q ls run w c ent han upd]. unfold accepted in Hp. cbn [entered waiting] in Hp.
  set (acc := map snd (filter (fun e : bool * msg => negb (fst e)) ent)) in *.
  assert (Hsame : forall s2, entered s2 = ent -> waiting s2 = w -> offer l = [] -> traced (os ++ offer l) s2).
  { intros s2 H1 H2 ->. exists lost. unfold accepted. rewrite H1, H2, app_nil_r. exact Hp. }
  assert (Hnew : forall s2 sr m, entered s2 = ent -> waiting s2 = w ++ [(sr, m)] -> offer l = [m] -> traced (os ++ offer l) s2).
  { intros s2 sr m H1 H2 ->. exists lost. unfold accepted. rewrite H1, H2. fold acc. rewrite map_app. cbn [map snd]. rewrite Hp.
    rewrite <- !app_assoc. do 2 apply Permutation_app_head. apply Permutation_app_comm. }
  assert (Hdrop : forall s2 i x, nth_error w i = Some x -> entered s2 = ent -> waiting s2 = remove_nth i w -> offer l = [] -> traced (os ++ offer l) s2).
  { intros s2 i x Hn H1 H2 ->. exists (snd x :: lost). unfold accepted. rewrite H1, H2, app_nil_r. fold acc. rewrite Hp.
    apply Permutation_app_head. rewrite (remove_perm w i x Hn). cbn [app]. apply Permutation_middle. }
  destruct l; cbn [step] in Hs.
  - break_step Hs; subst s'; apply Hsame; reflexivity.
  - break_step Hs; subst s'; eapply Hnew; reflexivity.
  - break_step Hs; subst s'; eapply Hnew; reflexivity.
  - break_step Hs; subst s'; eapply Hnew; reflexivity.
  - destruct (nth_error w i) as [[sr m]|] eqn:En; [|discriminate]. destruct (length q <? cap)%nat; [|discriminate].
    apply some_inj in Hs. subst s'. exists lost. unfold accepted. cbn [entered waiting offer]. rewrite accepted_snoc_ext, app_nil_r. fold acc. rewrite Hp.
    rewrite (remove_perm w i _ En). cbn [snd]. rewrite <- !app_assoc. apply Permutation_app_head. reflexivity.
  - break_step Hs; subst s'; eapply Hdrop; [eassumption|reflexivity..].
  - break_step Hs; subst s'; apply Hsame; reflexivity.
  - break_step Hs; subst s'; apply Hsame; reflexivity.
  - break_step Hs; subst s'; exists lost; unfold accepted; cbn [entered waiting offer]; rewrite accepted_snoc_loop, app_nil_r; exact Hp.
  - break_step Hs; subst s'; apply Hsame; reflexivity.
  - break_step Hs; subst s'; eapply Hdrop; [eassumption|reflexivity..].
  - break_step Hs; subst s'; apply Hsame; reflexivity.
  - break_step Hs; subst s'; apply Hsame; reflexivity.
Qed.

Lemma traced_steps ls : forall os s s', traced os s -> steps s ls = Some s' -> traced (os ++ offered ls) s'.
Proof.
  induction ls as [|l ls IH]; intros os s s' Ht Hs; cbn [steps offered flat_map] in *.
  - apply some_inj in Hs. subst. rewrite app_nil_r. exact Ht.
  - destruct (step s l) eqn:E; [|discriminate]. rewrite app_assoc. eapply IH; [|exact Hs]. eapply traced_step; eauto.
Qed.

(** ** C285 *)
(** Everything Update has been called with is, message for message (batches flattened), something that was offered:
    nothing is invented and nothing is delivered twice. *)
Theorem C285_only_offered_messages : forall ls s, reach ls s ->
  exists rest, Permutation (flat_map leaves (offered ls)) (updates s ++ rest).
Proof.
  intros ls s Hr. pose proof (C13_none_lost ls s Hr) as Hn.
  assert (Ht : traced (offered ls) s).
  { apply (traced_steps ls [] init s); [|exact Hr]. exists []. reflexivity. }
  destruct Ht as (lost & Hp). eexists. rewrite (Permutation_flat_map leaves Hp), flat_map_app, Hn, <- app_assoc. reflexivity.
Qed.
(** A case: a key, a command's batch and a message dropped by Send's timeout. *)
Example C285_case : exists s, reach [LStart true; LKey (MUser 1); LSend (MUser 9); LCmdDone (MBatch [MUser 2; MUser 3]); LEnq 0; LSendTimeout 0; LEnq 0;
    LTake 0; LUpdDone 0 false; LTake 0; LPush 0; LPush 0; LTake 0; LUpdDone 0 false; LTake 0] s /\ updates s = [1; 2; 3].
Proof. eexists. split; [vm_compute; reflexivity|reflexivity]. Qed.

(** ** C286 *)
(** [size n]: message [n] tells the window's size. A program is told it at start: after Run has handled anything
    at all, Update has seen one. Refuted: no code in the library produces one, so unless the application itself
    sends one, Update never sees one. *)
Theorem C286_never_told : forall (size : Z -> bool) ls s, reach ls s ->
  (forall n, In n (flat_map leaves (offered ls)) -> size n = false) -> forall n, In n (updates s) -> size n = false.
Proof.
  intros size ls s Hr Hno n Hn. destruct (C285_only_offered_messages ls s Hr) as (rest & Hp). apply Hno.
  eapply Permutation_in; [symmetry; exact Hp|]. apply in_or_app. auto.
Qed.
Theorem C286_told_the_size_refuted : exists (size : Z -> bool), size 0 = true /\
  ~ forall ls s, reach ls s -> (3 <= length (updates s))%nat -> exists n, In n (updates s) /\ size n = true.
Proof.
  exists (Z.eqb 0). split; [reflexivity|]. intros H. destruct C285_case as (s & Hr & Hu).
  specialize (H _ _ Hr). rewrite Hu in H. destruct (H ltac:(cbn; lia)) as (n & Hn & He). cbn [In] in Hn. lia.
Qed.

Print Assumptions C285_only_offered_messages. Print Assumptions C286_never_told. Print Assumptions C286_told_the_size_refuted.
