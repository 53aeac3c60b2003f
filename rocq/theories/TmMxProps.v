(** Mode calls from several goroutines. *)
From Verif Require Import Prelude TermEmu RenderModel RenderEmu TmModel TmSpec TmProofs TmProps MxModel MxProofs TmMxModel.

(* ---------- specification ---------- *)

(** What a mode call returns (no error / the answer) and leaves behind, on a terminal in the given modes. *)
Definition answer (alt raw : bool) (c : mcall) : bool :=
  match c with MEnterAlt ok => negb alt && ok | MExitAlt ok => alt && ok | MIsAlt => alt | MEnterRaw ok => negb raw && ok | MExitRaw ok => raw && ok | MIsRaw => raw end.
Definition alt_next (alt : bool) (c : mcall) : bool := match c with MEnterAlt ok => alt || ok | MExitAlt ok => alt && negb ok | _ => alt end.
Definition raw_next (raw : bool) (c : mcall) : bool := match c with MEnterRaw ok => raw || ok | MExitRaw ok => raw && negb ok | _ => raw end.
Fixpoint answers (alt raw : bool) (cs : list (mcall * bool)) : Prop :=
  match cs with [] => True | (c, r) :: cs' => r = answer alt raw c /\ answers (alt_next alt c) (raw_next raw c) cs' end.
Definition alt_end (cs : list (mcall * bool)) : bool := fold_left alt_next (map fst cs) false.
Definition raw_end (cs : list (mcall * bool)) : bool := fold_left raw_next (map fst cs) false.
(** how many calls of a kind succeeded *)
Definition wins (p : mcall -> bool) (cs : list (mcall * bool)) : Z := Z.of_nat (length (filter (fun x => p (fst x) && snd x) cs)).
Definition is_enter_alt (c : mcall) : bool := match c with MEnterAlt _ => true | _ => false end.
Definition is_exit_alt (c : mcall) : bool := match c with MExitAlt _ => true | _ => false end.
Definition is_enter_raw (c : mcall) : bool := match c with MEnterRaw _ => true | _ => false end.
Definition is_exit_raw (c : mcall) : bool := match c with MExitRaw _ => true | _ => false end.

Section P.
Variable cw : Z -> Z.
Variable T : Type.
Variable mkraw : T -> T.
Notation alone := (alone (ansi T * dev T) (mpos T) mcall bool (m_first T) (m_next cw T mkraw)).
Notation one_by_one := (one_by_one (ansi T * dev T) (mpos T) mcall bool (m_first T) (m_next cw T mkraw)).
Notation m_exec := (m_exec cw T mkraw).

Lemma inj3 {X Y Z0} (x r : X) (y a : Y) (z d : Z0) : (x, (y, z)) = (r, (a, d)) -> r = x /\ a = y /\ d = z.
Proof using. intros E. repeat split; congruence. Qed.
Lemma inj4 {X O Y Z0} (x r : X) (o p : O) (y a : Y) (z d : Z0) : (x, o, y, z) = (r, p, a, d) -> r = x /\ a = y /\ d = z.
Proof using. intros E. repeat split; congruence. Qed.
(** The last step of a body is its return. *)
Fixpoint body (n : nat) (c : mcall) (p : mpos T) (s : ansi T * dev T) : option (bool * (ansi T * dev T)) :=
  match n with O => None | S n => match m_next cw T mkraw c p s with inr r => Some (r, s) | inl (p', s') => body n c p' s' end end.
Lemma body_part c p s p' s' : part _ _ _ _ (m_next cw T mkraw) c p s p' s' -> forall r, m_next cw T mkraw c p' s' = inr r -> forall n q, body n c p s = Some q -> q = (r, s').
Proof using.
  intros P. induction P as [l x|l x l1 x1 l2 x2 P IH E]; intros r R n q B.
  - destruct n; [discriminate|]. cbn [body] in B. rewrite R in B. congruence.
  - assert (G : forall l x l1 x1, part _ _ _ _ (m_next cw T mkraw) c l x l1 x1 -> forall n q, body n c l x = Some q -> exists m, body m c l1 x1 = Some q).
    { clear. intros l x l1 x1 P. induction P as [l x|l x l1 x1 l2 x2 P IH E]; intros n q B; [eauto|]. destruct (IH n q B) as (m & B2). destruct m; [discriminate|]. cbn [body] in B2. rewrite E in B2. eauto. }
    destruct (G _ _ _ _ P n q B) as (m & B2). destruct m; [discriminate|]. cbn [body] in B2. rewrite E in B2. destruct m; [discriminate|]. cbn [body] in B2. rewrite R in B2. congruence.
Qed.

(** One call, alone, on a terminal whose flags are right: the specified answer, and the flags are right again. *)
Lemma alone_spec c w h tio a d r a' d' : inv T mkraw w h tio a d -> alone c (a, d) r (a', d') ->
  inv T mkraw w h tio a' d' /\ r = answer (inAlt T a) (inRaw T a) c /\ inAlt T a' = alt_next (inAlt T a) c /\ inRaw T a' = raw_next (inRaw T a) c.
Proof using.
  intros I (l & P & R). assert (Q := fun n q => body_part c _ _ _ _ P r R n q). change (m_first T c) with (@PCheck T) in Q.
  assert (Io := i_orig _ _ _ _ _ _ _ I).
  assert (K : exists dc, match c with MIsAlt | MIsRaw => (r, a', d') = (match c with MIsAlt => inAlt T a | _ => inRaw T a end, a, d)
     | _ => TmModel.do_call cw T mkraw dc [match c with MEnterAlt k | MExitAlt k | MEnterRaw k | MExitRaw k => k | _ => true end] a d = (r, snd (fst (fst (TmModel.do_call cw T mkraw dc [match c with MEnterAlt k | MExitAlt k | MEnterRaw k | MExitRaw k => k | _ => true end] a d))), a', d') /\
          dc = match c with MEnterAlt _ => EnterAltScreen | MExitAlt _ => ExitAltScreen | MEnterRaw _ => EnterRawMode | _ => ExitRawMode end end).
  { destruct c as [ok|ok| |ok|ok|]; [exists EnterAltScreen|exists ExitAltScreen|exists EnterAltScreen|exists EnterRawMode|exists ExitRawMode|exists EnterAltScreen].
    - split; [|reflexivity]. cbn [TmModel.do_call]. destruct (inAlt T a) eqn:A.
      + specialize (Q 2%nat _ ltac:(cbn [body m_next]; rewrite A; cbn [body m_next]; reflexivity)). apply inj3 in Q as (-> & -> & ->). reflexivity.
      + destruct ok.
        * specialize (Q 4%nat _ ltac:(cbn [body m_next]; rewrite A; cbn [body m_next]; reflexivity)). apply inj3 in Q as (-> & -> & ->). reflexivity.
        * specialize (Q 3%nat _ ltac:(cbn [body m_next]; rewrite A; cbn [body m_next]; reflexivity)). apply inj3 in Q as (-> & -> & ->). reflexivity.
    - split; [|reflexivity]. cbn [TmModel.do_call]. destruct (inAlt T a) eqn:A.
      + destruct ok.
        * specialize (Q 4%nat _ ltac:(cbn [body m_next]; rewrite A; cbn [body m_next]; reflexivity)). apply inj3 in Q as (-> & -> & ->). reflexivity.
        * specialize (Q 3%nat _ ltac:(cbn [body m_next]; rewrite A; cbn [body m_next]; reflexivity)). apply inj3 in Q as (-> & -> & ->). reflexivity.
      + specialize (Q 2%nat _ ltac:(cbn [body m_next]; rewrite A; cbn [body m_next]; reflexivity)). apply inj3 in Q as (-> & -> & ->). reflexivity.
    - specialize (Q 2%nat _ ltac:(cbn [body m_next]; reflexivity)). apply inj3 in Q as (-> & -> & ->). reflexivity.
    - split; [|reflexivity]. cbn [TmModel.do_call]. destruct (inRaw T a) eqn:A.
      + specialize (Q 2%nat _ ltac:(cbn [body m_next]; rewrite A; cbn [body m_next]; reflexivity)). apply inj3 in Q as (-> & -> & ->). reflexivity.
      + destruct ok.
        * specialize (Q 5%nat _ ltac:(cbn [body m_next]; rewrite A; cbn [body m_next]; reflexivity)). apply inj3 in Q as (-> & -> & ->). reflexivity.
        * specialize (Q 3%nat _ ltac:(cbn [body m_next]; rewrite A; cbn [body m_next]; reflexivity)). apply inj3 in Q as (-> & -> & ->). reflexivity.
    - split; [|reflexivity]. cbn [TmModel.do_call]. destruct (inRaw T a) eqn:A; rewrite Io; cbn [negb].
      + destruct ok.
        * specialize (Q 5%nat _ ltac:(cbn [body m_next]; rewrite A; cbn [body m_next]; rewrite Io; cbn [body m_next]; reflexivity)). apply inj3 in Q as (-> & -> & ->). reflexivity.
        * specialize (Q 3%nat _ ltac:(cbn [body m_next]; rewrite A; cbn [body m_next]; rewrite Io; cbn [body m_next]; reflexivity)). apply inj3 in Q as (-> & -> & ->). reflexivity.
      + specialize (Q 2%nat _ ltac:(cbn [body m_next]; rewrite A; cbn [body m_next]; reflexivity)). apply inj3 in Q as (-> & -> & ->). reflexivity.
    - specialize (Q 2%nat _ ltac:(cbn [body m_next]; reflexivity)). apply inj3 in Q as (-> & -> & ->). reflexivity. }
  destruct K as (dc & K).
  assert (St : forall o, (exists q, TmModel.do_call cw T mkraw dc o a d = (r, q, a', d')) -> plain_call dc -> inv T mkraw w h tio a' d') by (intros o [q E] Pl; exact (inv_step cw T mkraw _ _ _ dc _ _ _ _ _ _ _ I Pl E)).
  destruct c as [ok|ok| |ok|ok|]; cbn [answer alt_next raw_next].
  - destruct K as [K ->]. split; [exact (St _ (ex_intro _ _ K) Logic.I)|]. cbn [TmModel.do_call TmModel.do_writes ask] in K. destruct (inAlt T a) eqn:A; [|destruct ok]; apply inj4 in K as (-> & -> & ->); cbn [inAlt inRaw negb andb orb]; rewrite ?A; auto.
  - destruct K as [K ->]. split; [exact (St _ (ex_intro _ _ K) Logic.I)|]. cbn [TmModel.do_call TmModel.do_writes ask] in K. destruct (inAlt T a) eqn:A; [destruct ok|]; cbn [negb] in K; apply inj4 in K as (-> & -> & ->); cbn [inAlt inRaw negb andb orb]; rewrite ?A; auto.
  - injection K as -> -> ->. auto.
  - destruct K as [K ->]. split; [exact (St _ (ex_intro _ _ K) Logic.I)|]. cbn [TmModel.do_call ask] in K. destruct (inRaw T a) eqn:A; [|destruct ok]; apply inj4 in K as (-> & -> & ->); cbn [inAlt inRaw negb andb orb]; rewrite ?A; auto.
  - destruct K as [K ->]. split; [exact (St _ (ex_intro _ _ K) Logic.I)|]. cbn [TmModel.do_call ask] in K. rewrite Io in K. destruct (inRaw T a) eqn:A; [destruct ok|]; cbn [negb] in K; apply inj4 in K as (-> & -> & ->); cbn [inAlt inRaw negb andb orb]; rewrite ?A; auto.
  - injection K as -> -> ->. auto.
Qed.
Lemma answers_app alt raw a c r : answers alt raw (a ++ [(c, r)]) <-> answers alt raw a /\ r = answer (fold_left alt_next (map fst a) alt) (fold_left raw_next (map fst a) raw) c.
Proof using.
  revert alt raw. induction a as [|[c1 r1] a IH]; intros alt raw; cbn [app answers map fst fold_left]; [tauto|]. rewrite IH. tauto.
Qed.
Lemma run_spec t tio cs s : wf t -> alt t = false -> one_by_one (newANSI T, Dev T t None tio) cs s ->
  inv T mkraw (tw t) (th t) tio (fst s) (snd s) /\ answers false false cs /\ inAlt T (fst s) = alt_end cs /\ inRaw T (fst s) = raw_end cs.
Proof using.
  intros Hwf Ha O. remember (newANSI T, Dev T t None tio) as x0 eqn:E0. induction O as [x|x cs x1 c r x2 O IH A]; subst x.
  - split; [|split; [exact Logic.I|split; reflexivity]]. constructor; cbn; auto. discriminate.
  - destruct (IH eq_refl) as (I & B & C & D). destruct x1 as [a d], x2 as [a' d']. cbn [fst snd] in *. destruct (alone_spec _ _ _ _ _ _ _ _ _ I A) as (I' & R & N1 & N2).
    split; [exact I'|]. unfold alt_end, raw_end in *. rewrite !map_app, !fold_left_app. cbn [map fst fold_left]. rewrite N1, N2, C, D. split; [|auto]. apply answers_app. split; auto. now rewrite <- C, <- D.
Qed.

(* ---------- C325 ---------- *)

(** Whatever goroutines make whatever mode calls under whatever schedule, and whichever of them the system refuses: the calls have
    taken effect in some order that keeps each goroutine's own, each returned what that order makes of it, and whenever no call
    is under way the two questions are answered by the truth about the device. *)
Theorem C325_modes_concurrent : forall t tio ps sched, wf t -> alt t = false -> let s := m_exec sched t tio ps in
  exists order, answers false false (map snd order) /\
    (forall i th, nth_error (ths s) i = Some th -> of_thread _ _ i order = done th ++ match st th with Leaving c r => [(c, r)] | _ => [] end) /\
    (forall i th p, nth_error (ths s) i = Some th -> nth_error ps i = Some p -> exists rest, p = map fst (done th) ++ rest /\ (finished s -> rest = [])) /\
    (Forall (fun th => st th = Idle) (ths s) ->
       let a := fst (sh s) in let d := snd (sh s) in
       IsInAltScreen a = alt_end (map snd order) /\ alt (scr T d) = alt_end (map snd order) /\
       IsInRawMode a = raw_end (map snd order) /\ tty T d = (if raw_end (map snd order) then mkraw tio else tio)).
Proof using.
  intros t tio ps sched Hwf Ha s. unfold TmMxModel.m_exec in s.
  destruct (lock_serialises _ _ _ _ unit unit m_lock (m_first T) (m_next cw T mkraw) m_out ltac:(discriminate) (newANSI T, Dev T t None tio) tt (map (map Do) ps) sched) as (order & base & O & Dn & Pr & Re & Le & _).
  fold s in Dn, Pr, Re. destruct (run_spec _ _ _ _ Hwf Ha O) as (I & An & A1 & A2). exists order. split; [exact An|]. split; [exact Dn|]. split.
  - intros i th p E P. specialize (Pr i th (map Do p) E ltac:(rewrite nth_error_map, P; reflexivity)).
    assert (C : calls_of mcall unit (map Do p) = p) by (clear; induction p as [|c p IH]; [reflexivity|]; unfold calls_of in *; cbn [map flat_map]; rewrite IH; reflexivity). rewrite C in Pr.
    eexists. split; [exact Pr|]. intros F. unfold finished in F. rewrite Forall_forall in F. destruct (F th (nth_error_In _ _ E)) as [F1 F2]. unfold in_progress. rewrite F1, F2. reflexivity.
  - intros Q. assert (B : sh s = base) by (apply Re; eapply Forall_impl; [|exact Q]; unfold holds; intros th ->; reflexivity). cbv zeta. rewrite B. unfold IsInAltScreen, IsInRawMode.
    split; [exact A1|]. split; [rewrite (i_alt _ _ _ _ _ _ _ I); exact A1|]. split; [exact A2|]. rewrite (i_tty _ _ _ _ _ _ _ I), A2. reflexivity.
Qed.
Theorem C325_no_deadlock : forall t tio ps sched, let s := m_exec sched t tio ps in ~ finished s -> exists i, step m_lock (m_first T) (m_next cw T mkraw) m_out i s <> None.
Proof using. intros t tio ps sched s N. unfold s, TmMxModel.m_exec in *. apply lock_no_deadlock. exact N. Qed.
End P.

Lemma wins_cons p c r l : wins p ((c, r) :: l) = (if p c && r then 1 else 0) + wins p l.
Proof. unfold wins. cbn [filter fst snd]. destruct (p c && r); cbn [length]; lia. Qed.
(** In any order with the right answers the successful enters exceed the successful exits by one exactly while the mode is on:
    of several goroutines entering at once one succeeds. *)
Theorem C325_one_winner : forall cs, answers false false cs ->
  wins is_enter_alt cs = wins is_exit_alt cs + (if alt_end cs then 1 else 0) /\
  wins is_enter_raw cs = wins is_exit_raw cs + (if raw_end cs then 1 else 0).
Proof.
  assert (G : forall cs a b, answers a b cs -> (if a then 1 else 0) + wins is_enter_alt cs = wins is_exit_alt cs + (if fold_left alt_next (map fst cs) a then 1 else 0) /\
    (if b then 1 else 0) + wins is_enter_raw cs = wins is_exit_raw cs + (if fold_left raw_next (map fst cs) b then 1 else 0)).
  { induction cs as [|[c r] cs IH]; intros a b A; [split; cbn [map fold_left]; unfold wins; cbn; lia|]. cbn [answers] in A. destruct A as [R A]. specialize (IH _ _ A). cbn [map fst fold_left]. rewrite !wins_cons.
    destruct c as [[|]|[|]| |[|]|[|]|], a, b; cbn [answer alt_next raw_next is_enter_alt is_exit_alt is_enter_raw is_exit_raw andb orb negb] in *; subst r; cbn [andb] in *; lia. }
  intros cs A. apply G in A. unfold alt_end, raw_end. lia.
Qed.
(** Three goroutines: two enter the alternate screen, one asks; the second to enter is refused. *)
Example C325_ex : let s := m_exec (fun _ => 1) bool (fun _ => true) [0; 0; 1; 0; 2; 0; 0; 0; 1; 2; 1; 2; 1; 1; 2; 2; 2; 2]%nat (blank_term 10 5 true) false [[MEnterAlt true]; [MEnterAlt true]; [MIsAlt]] in
  map done (ths s) = [[(MEnterAlt true, true)]; [(MEnterAlt true, false)]; [(MIsAlt, true)]] /\ Forall (fun th => st th = Idle) (ths s).
Proof. vm_compute. split; [reflexivity|]. repeat constructor. Qed.

Print Assumptions C325_modes_concurrent. Print Assumptions C325_no_deadlock. Print Assumptions C325_one_winner.
