(** What a lock gives: the calls have the effect and the results of being made one after another. *)
From Verif Require Import Prelude MxModel.

Section Mx.
Variables Sh Lo Call Res Os Oc : Type.
Variable excl_lock : Call -> bool.
Variable first : Call -> Lo.
Variable next : Call -> Lo -> Sh -> (Lo * Sh) + Res.
Variable outside : Oc -> Os -> Os.

(** The body of one call, alone. *)
Inductive part (c : Call) : Lo -> Sh -> Lo -> Sh -> Prop :=
| p_refl l x : part c l x l x
| p_step l x l1 x1 l2 x2 : part c l x l1 x1 -> next c l1 x1 = inl (l2, x2) -> part c l x l2 x2.
Definition alone (c : Call) (x : Sh) (r : Res) (x' : Sh) : Prop := exists l, part c (first c) x l x' /\ next c l x' = inr r.
(** Calls one after another. *)
Inductive one_by_one : Sh -> list (Call * Res) -> Sh -> Prop :=
| o_nil x : one_by_one x [] x
| o_snoc x cs x1 c r x2 : one_by_one x cs x1 -> alone c x1 r x2 -> one_by_one x (cs ++ [(c, r)]) x2.
(** What goroutine [i] did in an order of calls. *)
Definition of_thread (i : nat) (order : list (nat * (Call * Res))) : list (Call * Res) := map snd (filter (fun p => Nat.eqb (fst p) i) order).
Definition calls_of (p : list (item Call Oc)) : list Call := flat_map (fun x => match x with Out _ => [] | Do c => [c] end) p.
Definition in_progress (t : thread Lo Call Res Oc) : list Call := match st t with Idle => [] | Inside c _ | Leaving c _ => [c] end.

Lemma nth_put ts : forall i j (t : thread Lo Call Res Oc), nth_error (put i t ts) j = if Nat.eqb i j then option_map (fun _ => t) (nth_error ts j) else nth_error ts j.
Proof. induction ts as [|x ts IH]; intros [|i] [|j] t; cbn [put nth_error Nat.eqb]; auto; try (destruct (Nat.eqb _ _); reflexivity). Qed.
Lemma free_spec c ts : free_for excl_lock c ts = true <-> forall j (t : thread Lo Call Res Oc), nth_error ts j = Some t -> (if excl_lock c then holds t else holds_excl excl_lock t) = false.
Proof.
  unfold free_for. rewrite forallb_forall. split.
  - intros H j t E. apply nth_error_In in E. apply H in E. destruct (if excl_lock c then _ else _); [discriminate|reflexivity].
  - intros H t I. apply In_nth_error in I as [j E]. apply H in E. now rewrite E.
Qed.
Lemma of_thread_app i a b : of_thread i (a ++ b) = of_thread i a ++ of_thread i b.
Proof. unfold of_thread. now rewrite filter_app, map_app. Qed.

Hypothesis readers : forall c l x l' x', excl_lock c = false -> next c l x = inl (l', x') -> x' = x.

Definition returned (t : thread Lo Call Res Oc) : list (Call * Res) := done t ++ match st t with Leaving c r => [(c, r)] | _ => [] end.
Record good (x0 : Sh) (ps : list (list (item Call Oc))) (s : sys Sh Lo Call Res Os Oc) (order : list (nat * (Call * Res))) (base : Sh) : Prop := Good {
  g_len : length (ths s) = length ps;
  g_ids : Forall (fun p => (fst p < length ps)%nat) order;
  g_order : one_by_one x0 (map snd order) base;
  g_done : forall i t, nth_error (ths s) i = Some t -> of_thread i order = returned t;
  g_prog : forall i t p, nth_error (ths s) i = Some t -> nth_error ps i = Some p -> calls_of p = map fst (done t) ++ in_progress t ++ calls_of (todo t);
  g_body : forall i t c l, nth_error (ths s) i = Some t -> st t = Inside c l -> part c (first c) base l (if excl_lock c then sh s else base);
  g_rest : (forall i t c l, nth_error (ths s) i = Some t -> st t = Inside c l -> excl_lock c = false) -> sh s = base;
  g_lock : forall i j t u, nth_error (ths s) i = Some t -> nth_error (ths s) j = Some u -> i <> j -> holds_excl excl_lock t = true -> holds u = false }.

Lemma put_len i (t : thread Lo Call Res Oc) ts : length (put i t ts) = length ts.
Proof. revert i. induction ts as [|x ts IH]; intros [|i]; cbn; auto. Qed.
Lemma good_begin x o ps : good x ps (begin x o ps) [] x.
Proof.
  assert (N : forall i t, nth_error (ths (begin (Lo := Lo) (Res := Res) x o ps)) i = Some t -> exists p, nth_error ps i = Some p /\ t = Th Idle p []).
  { intros i t E. cbn [begin ths] in E. rewrite nth_error_map in E. destruct (nth_error ps i) as [p|] eqn:Ep; [|discriminate]. cbn in E. injection E as <-. eauto. }
  constructor.
  - cbn. now rewrite map_length.
  - constructor.
  - constructor.
  - intros i t E. apply N in E as (p & _ & ->). reflexivity.
  - intros i t p E P. apply N in E as (p' & Q & ->). rewrite P in Q. injection Q as <-. reflexivity.
  - intros i t c l E S. apply N in E as (p & _ & ->). discriminate.
  - reflexivity.
  - intros i j t u E F D X. apply N in E as (p & _ & ->). discriminate.
Qed.

Lemma good_step x0 ps s order base i s' : good x0 ps s order base -> step excl_lock first next outside i s = Some s' -> exists order' base', good x0 ps s' order' base'.
Proof.
  intros G H. unfold step in H. destruct (nth_error (ths s) i) as [t|] eqn:Et; [|discriminate].
  assert (NP : forall (t' : thread Lo Call Res Oc) j u, nth_error (put i t' (ths s)) j = Some u -> (j = i /\ u = t') \/ (j <> i /\ nth_error (ths s) j = Some u)).
  { intros t' j u E. rewrite nth_put in E. destruct (Nat.eqb_spec i j) as [<-|N]; [rewrite Et in E; cbn in E; injection E as <-; auto|auto]. }
  destruct G as [gl gi go gd gp gb gr gk].
  destruct t as [s0 td dn]. cbn [st todo done] in H. destruct s0 as [|c l|c r].
  - destruct td as [|[o|c] r]; [discriminate| |].
    + (* outside *) injection H as <-. exists order, base. constructor; cbn [ths sh].
      * now rewrite put_len.
      * exact gi.
      * exact go.
      * intros j u E. apply NP in E as [[-> ->]|[_ E]]; [rewrite (gd _ _ Et); reflexivity|auto].
      * intros j u p E P. apply NP in E as [[-> ->]|[_ E]]; [rewrite (gp _ _ _ Et P); reflexivity|eauto].
      * intros j u c l E S. apply NP in E as [[-> ->]|[_ E]]; [discriminate|eauto].
      * intros Q. apply gr. intros j u c l E S. destruct (Nat.eq_dec j i) as [->|N]; [rewrite Et in E; injection E as <-; discriminate|].
        apply (Q j u c l); auto. rewrite nth_put. destruct (Nat.eqb_spec i j); [congruence|auto].
      * intros j k u v E F D X. apply NP in E as [[-> ->]|[_ E]]; [discriminate|]. apply NP in F as [[-> ->]|[_ F]]; [reflexivity|eauto].
    + (* enter *) destruct (free_for excl_lock c (ths s)) eqn:Fr; [|discriminate]. injection H as <-. exists order, base.
      assert (FR := proj1 (free_spec _ _) Fr). 
      assert (SB : sh s = base). { apply gr. intros j u c' l E S. apply FR in E. destruct (excl_lock c); [unfold holds in E; rewrite S in E; discriminate|]. unfold holds_excl in E. now rewrite S in E. }
      constructor; cbn [ths sh].
      * now rewrite put_len.
      * exact gi.
      * exact go.
      * intros j u E. apply NP in E as [[-> ->]|[_ E]]; [rewrite (gd _ _ Et); reflexivity|auto].
      * intros j u p E P. apply NP in E as [[-> ->]|[_ E]]; [rewrite (gp _ _ _ Et P); reflexivity|eauto].
      * intros j u c' l E S. apply NP in E as [[-> ->]|[_ E]]; [|eauto]. cbn [st] in S. injection S as <- <-. rewrite SB. destruct (excl_lock c); constructor.
      * intros _. exact SB.
      * intros j k u v E F D X. apply NP in E as [[-> ->]|[NJ E]]; apply NP in F as [[-> ->]|[NK F]]; [congruence| |exfalso|eauto].
        -- cbn [holds_excl st] in X. apply FR in F. now rewrite X in F.
        -- apply FR in E. destruct (excl_lock c) eqn:EC; [|congruence]. unfold holds_excl in X. unfold holds in E. destruct (st u); discriminate.
  - (* body *)
    assert (B := gb _ _ _ _ Et eq_refl).
    destruct (next c l (sh s)) as [[l' x']|r] eqn:En; injection H as <-.
    + exists order, base. constructor; cbn [ths sh].
      * now rewrite put_len.
      * exact gi.
      * exact go.
      * intros j u E. apply NP in E as [[-> ->]|[_ E]]; [rewrite (gd _ _ Et); reflexivity|auto].
      * intros j u p E P. apply NP in E as [[-> ->]|[_ E]]; [rewrite (gp _ _ _ Et P); reflexivity|eauto].
      * intros j u c' l2 E S. apply NP in E as [[-> ->]|[NJ E]].
        -- cbn [st] in S. injection S as <- <-. destruct (excl_lock c) eqn:EC; [eapply p_step; eauto|].
           pose proof (readers _ _ _ _ _ EC En) as ->.
           assert (SB : sh s = base).
           { apply gr. intros k v c3 l3 E3 S3. destruct (excl_lock c3) eqn:E4; [|reflexivity]. exfalso. destruct (Nat.eq_dec k i) as [->|NK].
             - rewrite Et in E3. injection E3 as <-. cbn [st] in S3. injection S3 as <- <-. congruence.
             - assert (Q := gk _ _ _ _ E3 Et NK ltac:(unfold holds_excl; now rewrite S3)). discriminate. }
           rewrite SB in En. eapply p_step; eauto.
        -- destruct (excl_lock c') eqn:EC'; [|specialize (gb _ _ _ _ E S); now rewrite EC' in gb].
           assert (Q := gk _ _ _ _ E Et NJ ltac:(unfold holds_excl; now rewrite S)). discriminate.
      * intros Q. assert (EC : excl_lock c = false) by (apply (Q i (Th (Inside c l') td dn) c l'); [rewrite nth_put, Nat.eqb_refl, Et; reflexivity|reflexivity]).
        pose proof (readers _ _ _ _ _ EC En) as ->. apply gr. intros j u c2 l2 E S. destruct (Nat.eq_dec j i) as [->|N]; [rewrite Et in E; injection E as <-; cbn [st] in S; injection S as <- <-; exact EC|].
        apply (Q j u c2 l2); auto. rewrite nth_put. destruct (Nat.eqb_spec i j); [congruence|auto].
      * intros j k u v E F D X. apply NP in E as [[-> ->]|[NJ E]]; apply NP in F as [[-> ->]|[NK F]]; [congruence| | |eauto].
        -- apply (gk _ _ _ _ Et F D). exact X.
        -- exact (gk _ _ _ _ E Et D X).
    + (* the call takes effect *)
      exists (order ++ [(i, (c, r))]), (if excl_lock c then sh s else base). 
      assert (SB : excl_lock c = false -> sh s = base).
      { intros EC. apply gr. intros k v c3 l3 E3 S3. destruct (excl_lock c3) eqn:E4; [|reflexivity]. exfalso. destruct (Nat.eq_dec k i) as [->|NK].
        - rewrite Et in E3. injection E3 as <-. cbn [st] in S3. injection S3 as <- <-. congruence.
        - assert (Q := gk _ _ _ _ E3 Et NK ltac:(unfold holds_excl; now rewrite S3)). discriminate. }
      assert (S' : (if excl_lock c then sh s else base) = sh s) by (destruct (excl_lock c); auto; symmetry; auto).
      constructor; cbn [ths sh].
      * now rewrite put_len.
      * apply Forall_app. split; [exact gi|]. constructor; [|constructor]. cbn [fst]. rewrite <- gl. apply nth_error_Some. rewrite Et. discriminate.
      * rewrite map_app. cbn [map snd]. eapply o_snoc; eauto. exists l. split; [exact B|]. rewrite S'. exact En.
      * intros j u E. rewrite of_thread_app. apply NP in E as [[-> ->]|[NJ E]].
        -- rewrite (gd _ _ Et). unfold of_thread. cbn [filter fst]. rewrite Nat.eqb_refl. unfold returned. cbn [st done map snd app]. now rewrite app_nil_r.
        -- rewrite (gd _ _ E). unfold of_thread. cbn [filter fst]. destruct (Nat.eqb_spec i j); [congruence|]. now rewrite app_nil_r.
      * intros j u p E P. apply NP in E as [[-> ->]|[_ E]]; [rewrite (gp _ _ _ Et P); reflexivity|eauto].
      * intros j u c' l2 E S. apply NP in E as [[-> ->]|[NJ E]]; [discriminate|].
        destruct (excl_lock c') eqn:EC'; [assert (Q := gk _ _ _ _ E Et NJ ltac:(unfold holds_excl; now rewrite S)); discriminate|].
        destruct (excl_lock c) eqn:EC; [assert (Q := gk _ _ _ _ Et E ltac:(congruence) EC); unfold holds in Q; rewrite S in Q; discriminate|].
        specialize (gb _ _ _ _ E S). now rewrite EC' in gb.
      * intros _. symmetry. exact S'.
      * intros j k u v E F D X. apply NP in E as [[-> ->]|[NJ E]]; apply NP in F as [[-> ->]|[NK F]]; [congruence| | |eauto].
        -- apply (gk _ _ _ _ Et F D). exact X.
        -- exact (gk _ _ _ _ E Et D X).
  - (* leave *) injection H as <-. exists order, base. constructor; cbn [ths sh].
    + now rewrite put_len.
    + exact gi.
    + exact go.
    + intros j u E. apply NP in E as [[-> ->]|[_ E]]; [rewrite (gd _ _ Et); unfold returned; cbn [st done]; now rewrite app_nil_r|auto].
    + intros j u p E P. apply NP in E as [[-> ->]|[_ E]]; [rewrite (gp _ _ _ Et P); cbn [done todo in_progress st]; now rewrite map_app, <- app_assoc|eauto].
    + intros j u c' l E S. apply NP in E as [[-> ->]|[_ E]]; [discriminate|eauto].
    + intros Q. apply gr. intros j u c' l E S. destruct (Nat.eq_dec j i) as [->|N]; [rewrite Et in E; injection E as <-; discriminate|].
      apply (Q j u c' l); auto. rewrite nth_put. destruct (Nat.eqb_spec i j); [congruence|auto].
    + intros j k u v E F D X. apply NP in E as [[-> ->]|[NJ E]]; [discriminate|]. apply NP in F as [[-> ->]|[NK F]]; [reflexivity|eauto].
Qed.

Lemma good_exec sched : forall x0 ps s order base, good x0 ps s order base -> exists order' base', good x0 ps (exec excl_lock first next outside sched s) order' base'.
Proof.
  induction sched as [|i r IH]; intros x0 ps s order base G; cbn [exec]; [eauto|].
  destruct (step excl_lock first next outside i s) as [s'|] eqn:E; [|eauto]. destruct (good_step _ _ _ _ _ _ _ G E) as (o & b & G'). eauto.
Qed.

(** Whatever the programs and the schedule: there is an order of the calls that have taken effect, keeping each goroutine's own order,
    in which the calls made one after another give the same results and, when nobody is inside, the same state; and a goroutine's
    returned, current and coming calls are those of its program. *)
Theorem lock_serialises : forall x o ps sched, let s := exec excl_lock first next outside sched (begin x o ps) in
  exists order base, one_by_one x (map snd order) base /\
    (forall i t, nth_error (ths s) i = Some t -> of_thread i order = returned t) /\
    (forall i t p, nth_error (ths s) i = Some t -> nth_error ps i = Some p -> calls_of p = map fst (done t) ++ in_progress t ++ calls_of (todo t)) /\
    (Forall (fun t => holds t = false) (ths s) -> sh s = base) /\ length (ths s) = length ps /\ Forall (fun p => (fst p < length ps)%nat) order.
Proof.
  intros x o ps sched s. destruct (good_exec sched _ _ _ _ _ (good_begin x o ps)) as (order & base & G). fold s in G. exists order, base. destruct G as [gl gi go gd gp gb gr gk].
  split; [exact go|]. split; [exact gd|]. split; [exact gp|]. split; [|split; [exact gl|exact gi]]. intros Q. apply gr. intros i t c l E S. rewrite Forall_forall in Q. specialize (Q t (nth_error_In _ _ E)). unfold holds in Q. rewrite S in Q. discriminate.
Qed.
(** Somebody can always go on. *)
Theorem lock_no_deadlock : forall x o ps sched, let s := exec excl_lock first next outside sched (begin x o ps) in
  ~ finished s -> exists i, step excl_lock first next outside i s <> None.
Proof.
  intros x o ps sched s N. 
  destruct (forallb (fun t => negb (holds t)) (ths s)) eqn:F.
  - assert (Q : exists i t, nth_error (ths s) i = Some t /\ todo t <> []).
    { clear - N F. unfold finished in N. induction (ths s) as [|t l IH]; [destruct N; constructor|]. cbn in F. apply andb_true_iff in F as [F1 F2].
      destruct (todo t) eqn:T; [|exists 0%nat, t; split; [reflexivity|congruence]]. destruct IH as (i & u & E & D); auto; [|exists (S i), u; auto].
      intros K. apply N. constructor; auto. split; auto. unfold holds in F1. destruct (st t); [reflexivity|discriminate|discriminate]. }
    destruct Q as (i & t & E & D). exists i. unfold step. rewrite E. rewrite forallb_forall in F. pose proof (F t (nth_error_In _ _ E)) as H. unfold holds in H. destruct (st t); [|discriminate|discriminate].
    destruct (todo t) as [|[o'|c] r]; [congruence|discriminate|]. replace (free_for excl_lock c (ths s)) with true; [discriminate|]. symmetry. apply free_spec. intros j u E'. specialize (F u (nth_error_In _ _ E')).
    unfold holds_excl, holds in *. destruct (st u); [|discriminate|discriminate]. destruct (excl_lock c); reflexivity.
  - assert (Q : exists i t, nth_error (ths s) i = Some t /\ holds t = true).
    { clear - F. induction (ths s) as [|t l IH]; [discriminate|]. cbn in F. destruct (holds t) eqn:H; [exists 0%nat, t; auto|]. cbn in F. destruct (IH F) as (i & u & E & D). exists (S i), u. auto. }
    destruct Q as (i & t & E & D). exists i. unfold step. rewrite E. unfold holds in D. destruct (st t); [discriminate| |discriminate]. destruct (next c l (sh s)) as [[? ?]|]; discriminate.
Qed.
End Mx.
