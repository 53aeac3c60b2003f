(** C302-C304: the order of one sender's messages; what Stop achieves. Model: TeaModel. *)
From Verif Require Import Prelude TeaModel TeaSpec TeaProofs TeaProps TeaSourceProps.

(** ** Specification *)
(** [l] is obtained from [k] by leaving out elements. *)
Inductive subseq {A} : list A -> list A -> Prop :=
| sub_nil : subseq [] []
| sub_keep x l k : subseq l k -> subseq (x :: l) (x :: k)
| sub_drop x l k : subseq l k -> subseq l (x :: k).

Section Order.
(** The messages of one sender (the keyboard; a goroutine that calls Send). *)
Variable mine : Z -> bool.
Definition of_mine (l : list msg) : list Z := filter mine (flat_map leaves l).
Definition has_mine (m : msg) : bool := existsb mine (leaves m).
(** They are plain messages, not members of batches. *)
Definition plainly (ls : list label) : Prop := forall m, In m (offered ls) -> has_mine m = true -> exists n, m = MUser n.
(** The sender offers a message only when the one before it has been taken or given up. *)
Definition one_at_a_time (ls : list label) : Prop := forall a l b s0, ls = a ++ l :: b -> steps init a = Some s0 ->
  of_mine (offer l) <> [] -> of_mine (map snd (waiting s0)) = [].
Definition gives_up (l : label) : bool := match l with LSendTimeout _ | LQuitWait _ => true | _ => false end.

(** ** Proofs *)
Lemma subseq_refl {A} (l : list A) : subseq l l. Proof. induction l; constructor; auto. Qed.
Lemma subseq_trans {A} (a b c : list A) : subseq a b -> subseq b c -> subseq a c.
Proof.
  intros H1 H2. revert a H1. induction H2; intros a H1; auto.
  - inversion H1; subst; [apply sub_keep; auto|apply sub_drop; auto].
  - apply sub_drop; auto.
Qed.
Lemma subseq_app {A} (a b c d : list A) : subseq a b -> subseq c d -> subseq (a ++ c) (b ++ d).
Proof. induction 1; intros H'; cbn [app]; [auto|apply sub_keep; auto|apply sub_drop; auto]. Qed.
Lemma subseq_nil {A} (l : list A) : subseq [] l. Proof. induction l; constructor; auto. Qed.
Lemma subseq_prefix {A} (a b c : list A) : subseq (a ++ b) c -> subseq a c.
Proof. intros Hs. eapply subseq_trans; [|exact Hs]. rewrite <- (app_nil_r a) at 1. apply subseq_app; [apply subseq_refl|apply subseq_nil]. Qed.

Lemma of_mine_app a b : of_mine (a ++ b) = of_mine a ++ of_mine b.
Proof. unfold of_mine. rewrite flat_map_app, filter_app. reflexivity. Qed.
Lemma of_mine_cons m l : of_mine (m :: l) = of_mine [m] ++ of_mine l.
Proof. exact (of_mine_app [m] l). Qed.
Lemma of_mine_none m : has_mine m = false -> of_mine [m] = [].
Proof.
  intros Hm. unfold of_mine. cbn [flat_map]. rewrite app_nil_r. unfold has_mine in Hm. induction (leaves m) as [|x r IH]; [reflexivity|]. cbn [existsb filter] in *.
  apply orb_false_iff in Hm as [-> Hm]. auto.
Qed.
Definition good (m : msg) : Prop := (exists n, m = MUser n) \/ has_mine m = false.
Lemma existsb_concat (l : list msg) : existsb mine (flat_map leaves l) = existsb has_mine l.
Proof. induction l as [|m l IH]; [reflexivity|]. cbn [flat_map existsb]. rewrite existsb_app, IH. reflexivity. Qed.
Lemma members_none l m : has_mine (MBatch l) = false \/ has_mine (MSeq l) = false -> In m l -> has_mine m = false.
Proof.
  intros Hb Hm. assert (Hx : existsb has_mine l = false).
  { rewrite <- existsb_concat. destruct Hb as [Hb|Hb]; unfold has_mine in Hb; [rewrite leaves_batch in Hb|rewrite leaves_seq in Hb]; exact Hb. }
  destruct (has_mine m) eqn:E; auto. assert (existsb has_mine l = true) by (apply existsb_exists; eauto). congruence.
Qed.
Lemma of_mine_good_user m : good m -> of_mine [m] = filter mine (user m).
Proof.
  intros [(n & ->)|Hn]; [unfold of_mine; cbn [flat_map leaves user app]; reflexivity|]. rewrite (of_mine_none m Hn). destruct m; try reflexivity.
  cbn [user filter]. unfold has_mine in Hn. cbn [leaves existsb] in Hn. apply orb_false_iff in Hn as [-> _]. reflexivity.
Qed.
Lemma of_mine_good l : Forall good l -> of_mine l = filter mine (flat_map user l).
Proof. induction 1 as [|m l Hm Hl IH]; [reflexivity|]. rewrite of_mine_cons, (of_mine_good_user m Hm), IH. cbn [flat_map]. rewrite filter_app. reflexivity. Qed.

Record kept (s : st) : Prop := Kept {
  k_ent : Forall good (map snd (entered s)); k_wait : Forall good (map snd (waiting s));
  k_hand : Forall (fun m => has_mine m = false) (flat_map in_hand (loops s)) }.

Lemma remove_sub {A} (w : list A) i x : nth_error w i = Some x -> incl (remove_nth i w) w /\ In x w.
Proof. intros Hn. destruct (split_nth w i x Hn) as (a & b & -> & _ & -> & _). split; [intros y; rewrite !in_app_iff; cbn; tauto|apply in_or_app; right; left; reflexivity]. Qed.
Lemma Forall_incl {A} (P : A -> Prop) l k : incl l k -> Forall P k -> Forall P l.
Proof. rewrite !Forall_forall. auto. Qed.
Lemma Forall_map_remove (w : list (src * msg)) i x : nth_error w i = Some x -> Forall good (map snd w) -> Forall good (map snd (remove_nth i w)) /\ good (snd x).
Proof.
  intros Hn. destruct (remove_sub w i x Hn) as [H1 H2]. rewrite !Forall_map, !Forall_forall. intros Hf. split; [intros y Hy; apply Hf; auto|apply Hf; auto].
Qed.

Lemma kept_step s l s' : inv s -> kept s -> (forall m, In m (offer l) -> good m) -> step s l = Some s' -> kept s'.
Proof.
  intros Hinv [K1 K2 K3] Ho Hs. pose proof (i_fifo s Hinv) as Hf. destruct s as [q ls run w c ent han upd]. cbn [entered waiting loops handled queue] in *.
  assert (Hq : Forall good q) by (rewrite Hf in K1; apply Forall_app in K1; tauto).
  destruct l; cbn [step] in Hs; cbn [offer] in Ho.
  - break_step Hs; subst s'; constructor; cbn [entered waiting loops]; auto; rewrite flat_map_app, app_nil_r; auto.
  - break_step Hs; subst s'; constructor; cbn [entered waiting loops]; auto; rewrite map_app, Forall_app; split; auto; constructor; [apply Ho; left; reflexivity|constructor].
  - break_step Hs; subst s'; constructor; cbn [entered waiting loops]; auto; rewrite map_app, Forall_app; split; auto; constructor; [apply Ho; left; reflexivity|constructor].
  - break_step Hs; subst s'; constructor; cbn [entered waiting loops]; auto; rewrite map_app, Forall_app; split; auto; constructor; [apply Ho; left; reflexivity|constructor].
  - destruct (nth_error w i) as [[sr m]|] eqn:En; [|discriminate]. destruct (length q <? cap)%nat; [|discriminate]. destruct (Forall_map_remove w i _ En K2) as [R1 R2].
    apply some_inj in Hs. subst s'. constructor; cbn [entered waiting loops]; auto. rewrite map_app, Forall_app. split; auto. constructor; [exact R2|constructor].
  - break_step Hs; subst s'; constructor; cbn [entered waiting loops]; auto; eapply Forall_map_remove; eauto.
  - destruct (nth_error ls k) as [lk|] eqn:En; [|discriminate]. destruct lk; try discriminate. destruct q as [|m q]; [discriminate|].
    destruct (split_nth ls k Idle En) as (a & b & Els & Hset & Hrem & _). inversion Hq as [|? ? Hm _]; subst.
    rewrite flat_map_app in K3. cbn [flat_map in_hand app] in K3.
    assert (Hall : forall l, (m = MBatch l \/ m = MSeq l) -> Forall (fun m => has_mine m = false) l).
    { intros l Hl. destruct Hm as [(n & ->)|Hm]; [destruct Hl; discriminate|]. rewrite Forall_forall. intros x Hx. apply (members_none l x); auto. destruct Hl; subst; auto. }
    destruct m as [n| |l|l]; apply some_inj in Hs; subst s'; constructor; cbn [entered waiting loops]; auto;
      rewrite ?Hset, ?Hrem, flat_map_app; cbn [flat_map in_hand app]; auto; rewrite ?in_hand_pushing;
      apply Forall_app in K3 as [K3a K3b]; repeat (apply Forall_app; split); auto.
  - destruct (nth_error ls k) as [lk|] eqn:En; [|discriminate]. destruct lk; try discriminate.
    destruct (split_nth ls k Updating En) as (a & b & Els & Hset & Hrem & _). subst ls. rewrite flat_map_app in K3. cbn [flat_map in_hand app] in K3.
    apply some_inj in Hs; subst s'; constructor; cbn [entered waiting loops]; auto. rewrite Hset, flat_map_app. exact K3.
  - destruct (nth_error ls k) as [lk|] eqn:En; [|discriminate]. destruct lk as [|[|m r]|]; try discriminate. destruct (length q <? cap)%nat; [|discriminate].
    destruct (split_nth ls k _ En) as (a & b & Els & Hset & Hrem & _). subst ls. rewrite flat_map_app in K3. cbn [flat_map in_hand app] in K3.
    apply Forall_app in K3 as [K3a K3b]. inversion K3b as [|? ? Hm K3c]; subst.
    apply some_inj in Hs; subst s'; constructor; cbn [entered waiting loops]; auto.
    + rewrite map_app, Forall_app. split; auto. constructor; [right; exact Hm|constructor].
    + rewrite Hset, flat_map_app. cbn [flat_map]. rewrite in_hand_pushing. apply Forall_app. auto.
  - destruct (nth_error ls k) as [lk|] eqn:En; [|discriminate]. destruct lk; try discriminate.
    destruct (split_nth ls k _ En) as (a & b & Els & Hset & Hrem & _). subst ls. rewrite flat_map_app in K3. cbn [flat_map in_hand app] in K3.
    apply some_inj in Hs; subst s'; constructor; cbn [entered waiting loops]; auto. rewrite Hrem, flat_map_app. exact K3.
  - break_step Hs; subst s'; constructor; cbn [entered waiting loops]; auto; eapply Forall_map_remove; eauto.
  - break_step Hs; subst s'; constructor; auto.
  - break_step Hs; subst s'; constructor; auto.
Qed.

(** What the sender has got into the queue, then what it is waiting to put there. *)
Definition trail (s : st) : list Z := of_mine (map snd (entered s)) ++ of_mine (map snd (waiting s)).

Lemma of_mine_remove (w : list (src * msg)) i x : nth_error w i = Some x -> (length (of_mine (map snd w)) <= 1)%nat ->
  (of_mine [snd x] = [] /\ of_mine (map snd (remove_nth i w)) = of_mine (map snd w)) \/
  (of_mine [snd x] = of_mine (map snd w) /\ of_mine (map snd (remove_nth i w)) = []).
Proof.
  intros Hn Hl. destruct (split_nth w i x Hn) as (a & b & -> & _ & -> & _).
  assert (E1 : of_mine (map snd (a ++ x :: b)) = of_mine (map snd a) ++ of_mine [snd x] ++ of_mine (map snd b)) by (rewrite map_app; cbn [map]; rewrite of_mine_app, of_mine_cons; reflexivity).
  assert (E2 : of_mine (map snd (a ++ b)) = of_mine (map snd a) ++ of_mine (map snd b)) by (rewrite map_app, of_mine_app; reflexivity).
  rewrite E1 in *. rewrite E2. clear E1 E2.
  destruct (of_mine [snd x]) as [|y r] eqn:E; [left; split; reflexivity|]. right. rewrite !app_length in Hl. cbn [length app] in *.
  destruct (of_mine (map snd a)), r, (of_mine (map snd b)); cbn [length app] in *; try lia. split; reflexivity.
Qed.

Lemma trail_step s l s' : kept s -> (length (of_mine (map snd (waiting s))) <= 1)%nat ->
  (forall m, In m (offer l) -> good m) -> (of_mine (offer l) <> [] -> of_mine (map snd (waiting s)) = []) -> step s l = Some s' ->
  (length (of_mine (map snd (waiting s'))) <= 1)%nat /\
  (if gives_up l then subseq (trail s') (trail s) else trail s' = trail s ++ of_mine (offer l)).
Proof.
  intros [K1 K2 K3] Hw Ho Hone Hs. destruct s as [q ls run w c ent han upd]. unfold trail. cbn [entered waiting loops] in *.
  assert (Hsame : forall s2, entered s2 = ent -> waiting s2 = w -> of_mine (offer l) = [] -> gives_up l = false ->
    (length (of_mine (map snd (waiting s2))) <= 1)%nat /\ (if gives_up l then subseq (of_mine (map snd (entered s2)) ++ of_mine (map snd (waiting s2))) (of_mine (map snd ent) ++ of_mine (map snd w))
      else of_mine (map snd (entered s2)) ++ of_mine (map snd (waiting s2)) = (of_mine (map snd ent) ++ of_mine (map snd w)) ++ of_mine (offer l))).
  { intros s2 H1 H2 H3 ->. rewrite H1, H2, H3, app_nil_r. auto. }
  assert (Hnew : forall s2 sr m, entered s2 = ent -> waiting s2 = w ++ [(sr, m)] -> offer l = [m] -> gives_up l = false ->
    (length (of_mine (map snd (waiting s2))) <= 1)%nat /\ (if gives_up l then subseq (of_mine (map snd (entered s2)) ++ of_mine (map snd (waiting s2))) (of_mine (map snd ent) ++ of_mine (map snd w))
      else of_mine (map snd (entered s2)) ++ of_mine (map snd (waiting s2)) = (of_mine (map snd ent) ++ of_mine (map snd w)) ++ of_mine (offer l))).
  { intros s2 sr m H1 H2 H3 ->. rewrite H1, H2. rewrite map_app. cbn [map snd]. rewrite of_mine_app. rewrite H3 in *.
    assert (Hm : good m) by (apply Ho; left; reflexivity). split; [|rewrite app_assoc; reflexivity].
    rewrite app_length. destruct (of_mine [m]) as [|y r] eqn:E; [cbn [length]; lia|]. rewrite (Hone ltac:(discriminate)). cbn [length Nat.add].
    rewrite (of_mine_good_user m Hm) in E. destruct m as [n| | |]; cbn [user filter] in E; try discriminate. destruct (mine n); [injection E as <- <-; cbn; lia|discriminate]. }
  assert (Hdrop : forall s2 i x, nth_error w i = Some x -> entered s2 = ent -> waiting s2 = remove_nth i w -> gives_up l = true ->
    (length (of_mine (map snd (waiting s2))) <= 1)%nat /\ (if gives_up l then subseq (of_mine (map snd (entered s2)) ++ of_mine (map snd (waiting s2))) (of_mine (map snd ent) ++ of_mine (map snd w))
      else of_mine (map snd (entered s2)) ++ of_mine (map snd (waiting s2)) = (of_mine (map snd ent) ++ of_mine (map snd w)) ++ of_mine (offer l))).
  { intros s2 i x Hn H1 H2 ->. rewrite H1, H2. destruct (of_mine_remove w i x Hn Hw) as [[_ ->]|[_ ->]].
    - split; [exact Hw|apply subseq_refl].
    - split; [cbn; lia|]. apply subseq_app; [apply subseq_refl|apply subseq_nil]. }
  destruct l; cbn [step] in Hs.
  - break_step Hs; subst s'; apply Hsame; reflexivity.
  - break_step Hs; subst s'; eapply Hnew; reflexivity.
  - break_step Hs; subst s'; eapply Hnew; reflexivity.
  - break_step Hs; subst s'; eapply Hnew; reflexivity.
  - destruct (nth_error w i) as [[sr m]|] eqn:En; [|discriminate]. destruct (length q <? cap)%nat; [|discriminate].
    apply some_inj in Hs. subst s'. cbn [entered waiting gives_up offer]. rewrite map_app, of_mine_app. cbn [map snd].
    destruct (of_mine_remove w i _ En Hw) as [[E1 E2]|[E1 E2]]; cbn [snd] in E1; rewrite E1, E2; cbn [of_mine flat_map filter]; rewrite ?app_nil_r; (split; [cbn [length]; lia|reflexivity]).
  - break_step Hs; subst s'; eapply Hdrop; try reflexivity; eassumption.
  - break_step Hs; subst s'; apply Hsame; reflexivity.
  - break_step Hs; subst s'; apply Hsame; reflexivity.
  - destruct (nth_error ls k) as [lk|] eqn:En; [|discriminate]. destruct lk as [|[|m r]|]; try discriminate. destruct (length q <? cap)%nat; [|discriminate].
    destruct (split_nth ls k _ En) as (a & b & Els & Hset & Hrem & _). subst ls. rewrite flat_map_app in K3. cbn [flat_map in_hand app] in K3.
    apply Forall_app in K3 as [_ K3b]. inversion K3b as [|? ? Hm _]; subst.
    apply some_inj in Hs; subst s'. cbn [entered waiting gives_up offer]. rewrite map_app, of_mine_app. cbn [map snd]. rewrite (of_mine_none m Hm), !app_nil_r. auto.
  - break_step Hs; subst s'; apply Hsame; reflexivity.
  - break_step Hs; subst s'; eapply Hdrop; try reflexivity; eassumption.
  - break_step Hs; subst s'; apply Hsame; reflexivity.
  - break_step Hs; subst s'; apply Hsame; reflexivity.
Qed.

Lemma offered_app a b : offered (a ++ b) = offered a ++ offered b.
Proof. apply flat_map_app. Qed.

Lemma trail_reach ls : forall s, reach ls s -> plainly ls -> one_at_a_time ls ->
  kept s /\ (length (of_mine (map snd (waiting s))) <= 1)%nat /\ subseq (trail s) (of_mine (offered ls)) /\
  (forallb (fun l => negb (gives_up l)) ls = true -> trail s = of_mine (offered ls)).
Proof.
  induction ls as [|l ls IH] using rev_ind; intros s Hr Hp Ho.
  - unfold reach in Hr. cbn [steps] in Hr. apply some_inj in Hr. subst s. split; [constructor; constructor|]. split; [cbn; lia|]. split; [constructor|reflexivity].
  - unfold reach in Hr. rewrite steps_app in Hr. destruct (steps init ls) as [s0|] eqn:E0; [|discriminate]. cbn [steps] in Hr. destruct (step s0 l) as [s1|] eqn:E1; [|discriminate]. apply some_inj in Hr. subst s1.
    destruct (IH s0 E0) as (I1 & I2 & I3 & I4).
    { intros m Hm. apply Hp. rewrite offered_app. apply in_or_app. auto. }
    { intros a x b t Ha Ht. apply (Ho a x (b ++ [l]) t); auto. rewrite Ha, <- app_assoc. reflexivity. }
    assert (Hg : forall m, In m (offer l) -> good m).
    { intros m Hm. destruct (has_mine m) eqn:Eh; [left|right; exact Eh]. apply Hp; auto. rewrite offered_app. apply in_or_app. right. unfold offered. cbn [flat_map]. rewrite app_nil_r. exact Hm. }
    assert (Ht := trail_step s0 l s I1 I2 Hg (Ho ls l [] s0 eq_refl E0) E1). destruct Ht as [T1 T2].
    split; [eapply kept_step; eauto; eapply inv_steps; [apply inv_init|exact E0]|]. split; [exact T1|].
    rewrite offered_app, of_mine_app. assert (El : offered [l] = offer l) by (unfold offered; cbn [flat_map]; apply app_nil_r). rewrite El.
    rewrite forallb_app. cbn [forallb]. destruct (gives_up l); cbn [negb andb].
    + split; [|rewrite andb_false_r; discriminate]. apply subseq_trans with (trail s0); [exact T2|]. rewrite <- (app_nil_r (trail s0)). apply subseq_app; [exact I3|apply subseq_nil].
    + rewrite T2. split; [apply subseq_app; [exact I3|apply subseq_refl]|]. intros Hf. rewrite andb_true_r in Hf. rewrite (I4 Hf). reflexivity.
Qed.

(** ** C302 *)
(** Update sees one sender's messages in the order they were sent ... *)
Theorem C302_sender_order : forall ls s, reach ls s -> plainly ls -> one_at_a_time ls ->
  subseq (filter mine (updates s)) (of_mine (offered ls)).
Proof.
  intros ls s Hr Hp Ho. destruct (trail_reach ls s Hr Hp Ho) as ([K1 _ _] & _ & Hsub & _).
  pose proof (inv_steps ls init s inv_init Hr) as [F U _]. unfold trail in Hsub. rewrite F, of_mine_app, <- app_assoc in Hsub. apply subseq_prefix in Hsub.
  rewrite F in K1. apply Forall_app in K1 as [K1 _]. rewrite of_mine_good in Hsub by exact K1. rewrite U. exact Hsub.
Qed.
(** ... and none is passed over: if the sender never gave up, what Update has not seen yet comes after what it has. *)
Theorem C302_sender_complete : forall ls s, reach ls s -> plainly ls -> one_at_a_time ls -> forallb (fun l => negb (gives_up l)) ls = true ->
  of_mine (offered ls) = filter mine (updates s) ++ of_mine (queue s) ++ of_mine (map snd (waiting s)).
Proof.
  intros ls s Hr Hp Ho Hg. destruct (trail_reach ls s Hr Hp Ho) as ([K1 _ _] & _ & _ & Heq). specialize (Heq Hg).
  pose proof (inv_steps ls init s inv_init Hr) as [F U _]. unfold trail in Heq. rewrite F, of_mine_app, <- app_assoc in Heq.
  rewrite F in K1. apply Forall_app in K1 as [K1 _]. rewrite of_mine_good in Heq by exact K1. rewrite U. symmetry. exact Heq.
Qed.
End Order.
(** A case: two keys (1, 2) between a command's batch and a Send. *)
Definition case_ls : list label :=
  [LStart true; LKey (MUser 1); LSend (MUser 9); LEnq 1; LCmdDone (MBatch [MUser 7; MUser 8]); LEnq 0; LKey (MUser 2); LEnq 1; LEnq 0;
   LTake 0; LUpdDone 0 false; LTake 0; LUpdDone 0 false; LTake 0; LUpdDone 0 false; LTake 0; LPush 0; LPush 0].
Example C302_case : let mine := fun n => n <? 5 in exists s, reach case_ls s /\ plainly mine case_ls /\ one_at_a_time mine case_ls /\ updates s = [9; 1; 2].
Proof.
  cbn zeta. eexists. split; [vm_compute; reflexivity|]. split; [|split; [|reflexivity]].
  - intros m Hm. cbn [case_ls offered flat_map offer app In] in Hm. decompose [or] Hm; try contradiction; subst m; eauto; vm_compute; discriminate.
  - intros a l b s0 Ha Hs. assert (Hl : (length a < length case_ls)%nat) by (rewrite Ha, app_length; cbn [length]; lia).
    assert (Ea : a = firstn (length a) case_ls) by (rewrite Ha, firstn_app, Nat.sub_diag, firstn_all; cbn [firstn]; rewrite app_nil_r; reflexivity).
    assert (El : l = nth (length a) case_ls LQuitLost) by (rewrite Ha, app_nth2, Nat.sub_diag by lia; reflexivity).
    clear Ha. rewrite Ea in Hs. revert Hs. rewrite El. clear Ea El. revert Hl. generalize (length a). intros n Hn Hs.
    do 18 (destruct n as [|n]; [vm_compute in Hs; apply some_inj in Hs; subst s0; vm_compute; congruence|]). cbn [case_ls length] in Hn. lia.
Qed.

(** ** C303 *)
(** A program that is not running, Stop never having run into its time limit, has no event loop, and Update is not
    called until it is started again: what a Stop that returned in time achieves. *)
Theorem C303_stopped_is_stopped : forall ls s ls2 s2, reach ls s -> no_stop_timeout ls -> running s = false ->
  forallb (fun l => negb (is_start l)) ls2 = true -> steps s ls2 = Some s2 -> loops s = [] /\ updates s2 = updates s.
Proof.
  intros ls s ls2 s2 Hr Hn Hrun Hs2 Hst. destruct (one_steps ls init s one_init Hn Hr) as [O1 O2].
  assert (Hl : loops s = []) by (rewrite Hrun in O1; destruct (loops s); [reflexivity|discriminate]).
  split; [exact Hl|]. apply (dead_steps ls2 s s2 Hl Hs2 Hst).
Qed.
Example C303_case : exists s, reach [LStart false; LSend (MUser 1); LEnq 0; LTake 0; LUpdDone 0 false; LQuitLoop 0] s /\ running s = false.
Proof. eexists. split; [vm_compute; reflexivity|reflexivity]. Qed.

(** ** C304 *)
(** Refuted: Stop called while Update runs. Its signal is lost, it returns after a second, the program counts as
    not running, and the event loop goes on calling Update. *)
Theorem C304_stop_stops_refuted : exists ls s s2,
  reach ls s /\ running s = true /\ loops s = [Updating] /\
  steps s [LQuitLost; LStopTimeout] = Some s2 /\ running s2 = false /\
  exists s3, steps s2 [LUpdDone 0 false; LTake 0] = Some s3 /\ updates s3 = updates s2 ++ [2].
Proof.
  exists [LStart false; LSend (MUser 1); LSend (MUser 2); LEnq 0; LEnq 0; LTake 0]. eexists _, _.
  split; [vm_compute; reflexivity|]. repeat split. eexists. split; [vm_compute; reflexivity|reflexivity].
Qed.

Print Assumptions C302_sender_order. Print Assumptions C302_sender_complete. Print Assumptions C303_stopped_is_stopped. Print Assumptions C304_stop_stops_refuted.
