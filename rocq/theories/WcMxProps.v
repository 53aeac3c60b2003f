(** C359: Windows console, mode calls from several goroutines. *)
From Verif Require Import Prelude MxModel MxProofs WcModel WcMxModel WcProps.
From Verif Require TmModel.

(* ---------- specification ---------- *)
(** A sequence of calls with what each returned (no error; the answer) tells the truth about a console whose modes change exactly at
    the calls that succeed: a call succeeds only in the opposite mode, and the questions are answered by the current modes. *)
Definition alt_next (a : bool) (c : wcall) (r : bool) : bool := match c with WEnterAlt => a || r | WExitAlt => a && negb r | _ => a end.
Definition raw_next (a : bool) (c : wcall) (r : bool) : bool := match c with WEnterRaw => a || r | WExitRaw => a && negb r | _ => a end.
Definition truthful1 (a w : bool) (c : wcall) (r : bool) : Prop :=
  match c with WEnterAlt => r = true -> a = false | WExitAlt => r = true -> a = true | WIsAlt => r = a | WEnterRaw => r = true -> w = false | WExitRaw => r = true -> w = true | WIsRaw => r = w end.
Fixpoint truthful (a w : bool) (cs : list (wcall * bool)) : Prop :=
  match cs with [] => True | (c, r) :: cs' => truthful1 a w c r /\ truthful (alt_next a c r) (raw_next w c r) cs' end.
(** What every call answers when the system refuses nothing. *)
Definition answer (a w : bool) (c : wcall) : bool :=
  match c with WEnterAlt => negb a | WExitAlt => a | WIsAlt => a | WEnterRaw => negb w | WExitRaw => w | WIsRaw => w end.
Fixpoint answers (a w : bool) (cs : list (wcall * bool)) : Prop :=
  match cs with [] => True | (c, r) :: cs' => r = answer a w c /\ answers (alt_next a c r) (raw_next w c r) cs' end.
Definition alt_end (cs : list (wcall * bool)) (a : bool) : bool := fold_left (fun a p => alt_next a (fst p) (snd p)) cs a.
Definition raw_end (cs : list (wcall * bool)) (w : bool) : bool := fold_left (fun w p => raw_next w (fst p) (snd p)) cs w.
(** how many calls of a kind succeeded *)
Definition wins (p : wcall -> bool) (cs : list (wcall * bool)) : Z := Z.of_nat (length (filter (fun x => p (fst x) && snd x) cs)).
Definition is_enter_alt (c : wcall) : bool := match c with WEnterAlt => true | _ => false end.
Definition is_exit_alt (c : wcall) : bool := match c with WExitAlt => true | _ => false end.
Definition is_enter_raw (c : wcall) : bool := match c with WEnterRaw => true | _ => false end.
Definition is_exit_raw (c : wcall) : bool := match c with WExitRaw => true | _ => false end.

Section P.
Variable put : list Z -> buf -> buf.
Variable close_ok : nat -> bool.
Notation alone := (alone st wpos wcall bool w_first (w_next close_ok)).
Notation one_by_one := (one_by_one st wpos wcall bool w_first (w_next close_ok)).
Notation w_exec := (w_exec close_ok).

(** The call of WcModel and what it means for it to return [r]. *)
Definition the_call (c : wcall) : option (M unit) :=
  match c with WEnterAlt => Some (EnterAltScreen close_ok) | WExitAlt => Some (ExitAltScreen close_ok) | WEnterRaw => Some EnterRawMode | WExitRaw => Some ExitRawMode | _ => None end.
Definition returns (c : wcall) (s : st) (r : bool) (s' : st) : Prop :=
  match the_call c with
  | Some m => m s = (if r then Some tt else None, s')
  | None => r = match c with WIsAlt => IsInAltScreen s | _ => IsInRawMode s end /\ s' = s
  end.
Fixpoint body (n : nat) (c : wcall) (p : wpos) (s : st) : option (bool * st) :=
  match n with O => None | S n => match w_next close_ok c p s with inr r => Some (r, s) | inl (p', s') => body n c p' s' end end.
Lemma body_part c p s p' s' : part _ _ _ _ (w_next close_ok) c p s p' s' -> forall r, w_next close_ok c p' s' = inr r -> forall n q, body n c p s = Some q -> q = (r, s').
Proof using.
  assert (G : forall l x l1 x1, part _ _ _ _ (w_next close_ok) c l x l1 x1 -> forall n q, body n c l x = Some q -> exists m, body m c l1 x1 = Some q).
  { clear. intros l x l1 x1 P. induction P as [l x|l x l1 x1 l2 x2 P IH E]; intros n q B; [eauto|]. destruct (IH n q B) as (m & B2). destruct m; [discriminate|]. cbn [body] in B2. rewrite E in B2. eauto. }
  intros P r R n q B. destruct (G _ _ _ _ P n q B) as (m & B2). destruct m; [discriminate|]. cbn [body] in B2. rewrite R in B2. congruence.
Qed.
(** Run without interference the steps of a body are the call. *)
Lemma body_call c s : exists n r s', body n c PCheck s = Some (r, s') /\ returns c s r s'.
Proof using.
  destruct s as [[ou og al ia ir om] sv d o]. exists 10%nat. unfold returns, the_call. destruct c.
  - cbn [body w_next inAlt obj]. unfold EnterAltScreen, bind, get, put_obj, upd. cbn [obj inAlt]. destruct ia; [eexists; eexists; split; reflexivity|].
    cbn [body w_next obj saved device orc out orig alt inAlt inRaw omode upd]. destruct (CreateBuffer _) as [[h|] [c1 v1 d1 o1]] eqn:E; [|eexists; eexists; split; reflexivity].
    cbn [body w_next obj saved device orc out orig alt inAlt inRaw omode upd]. destruct (SetActive h _) as [[[]|] [c2 v2 d2 o2]] eqn:E2.
    + eexists. eexists. split; reflexivity.
    + cbn [body w_next]. unfold CloseHandle at 1. cbn [body w_next]. unfold CloseHandle. eexists. eexists. split; [reflexivity|]. destruct (close_ok h); reflexivity.
  - cbn [body w_next inAlt obj]. unfold ExitAltScreen, bind, get, put_obj, upd, ret. cbn [obj inAlt]. destruct ia; cbn [negb]; [|eexists; eexists; split; reflexivity].
    cbn [body w_next obj orig]. destruct (SetActive og _) as [[[]|] [c2 v2 d2 o2]] eqn:E2; [|eexists; eexists; split; reflexivity].
    assert (C2 : c2 = Con ou og al true ir om). { unfold SetActive, sys in E2. cbn [orc device obj saved] in E2. destruct (TmModel.ask o) as [[|] o3]; [destruct (buf_of d og)|]; congruence. } subst c2.
    cbn [body w_next obj alt]. destruct al as [h|].
    + unfold CloseHandle at 1. cbn [body w_next obj]. unfold CloseHandle. eexists. eexists. split; [reflexivity|]. destruct (close_ok h); reflexivity.
    + cbn [body w_next obj]. eexists. eexists. split; reflexivity.
  - cbn [body w_next inAlt obj]. eexists. eexists. split; [reflexivity|]. auto.
  - cbn [body w_next inRaw obj]. unfold EnterRawMode, bind, get, put_obj, upd. cbn [obj inRaw]. destruct ir; [eexists; eexists; split; reflexivity|].
    cbn [body w_next]. destruct (GetMode _) as [[m|] [c1 v1 d1 o1]] eqn:E; [|eexists; eexists; split; reflexivity].
    assert (C1 : c1 = Con ou og al ia false om). { unfold GetMode, sys in E. cbn [orc device obj saved] in E. destruct (TmModel.ask o) as [[|] o3]; congruence. } subst c1.
    cbn [body w_next obj saved device orc out orig alt inAlt inRaw omode upd]. unfold SetMode, sys. cbn [orc device obj saved]. destruct (TmModel.ask o1) as [[|] o2].
    + eexists. eexists. split; reflexivity.
    + eexists. eexists. split; reflexivity.
  - cbn [body w_next inRaw obj]. unfold ExitRawMode, bind, get, put_obj, upd. cbn [obj inRaw]. destruct ir; cbn [negb]; [|eexists; eexists; split; reflexivity].
    cbn [body w_next obj saved device orc out orig alt inAlt inRaw omode upd]. unfold SetMode, sys. cbn [orc device obj saved]. destruct (TmModel.ask o) as [[|] o2].
    + eexists. eexists. split; reflexivity.
    + eexists. eexists. split; reflexivity.
  - cbn [body w_next inAlt obj]. eexists. eexists. split; [reflexivity|]. auto.
Qed.
Lemma alone_call c s r s' : alone c s r s' -> returns c s r s'.
Proof using.
  intros (l & P & R). destruct (body_call c s) as (n & r1 & s1 & B & Rt). pose proof (body_part c _ _ _ _ P r R n _ B) as E. injection E as -> ->. exact Rt.
Qed.
End P.

Section Q.
Variable close_ok : nat -> bool.
Notation alone := (alone st wpos wcall bool w_first (w_next close_ok)).
Notation one_by_one := (one_by_one st wpos wcall bool w_first (w_next close_ok)).
Notation w_exec := (w_exec close_ok).
Definition idput (t : list Z) (b : buf) : buf := b.
Lemma idsane : sane idput.
Proof using. intros t b H. exact H. Qed.
Notation reached := (reached idput close_ok).
Notation do_call := (do_call idput close_ok).
Definition tm_call (c : wcall) : TmModel.call := match c with WEnterAlt => TmModel.EnterAltScreen | WExitAlt => TmModel.ExitAltScreen | WEnterRaw => TmModel.EnterRawMode | _ => TmModel.ExitRawMode end.
Lemma any_call mode k s s' q : reached s -> raw_inv mode s -> do_call k s = (q, s') -> reached s' /\ raw_inv mode s'.
Proof using.
  intros R Q E. split.
  - destruct R as (b & m & o & cs & W & ->). exists b, m, o, (cs ++ [k]). split; [exact W|]. unfold do_calls in *. rewrite fold_left_app. cbn [fold_left]. rewrite E. reflexivity.
  - pose proof (raw_inv_call idput close_ok mode k s idsane (reached_inv idput close_ok s idsane R) Q) as Z. rewrite E in Z. exact Z.
Qed.
(** One call on a console some program has reached. *)
Lemma returns_step c s r s' mode : reached s -> raw_inv mode s -> returns close_ok c s r s' ->
  reached s' /\ raw_inv mode s' /\ truthful1 (inAlt (obj s)) (inRaw (obj s)) c r /\ inAlt (obj s') = alt_next (inAlt (obj s)) c r /\ inRaw (obj s') = raw_next (inRaw (obj s)) c r.
Proof using.
  intros R Q H. pose proof (reached_inv idput close_ok s idsane R) as I.
  unfold returns in H. destruct c; cbn [the_call truthful1 alt_next raw_next] in *.
  - destruct (any_call mode TmModel.EnterAltScreen s s' _ R Q H) as [R' Q']. split; [exact R'|]. split; [exact Q'|]. destruct (enter_alt close_ok s I) as [E1 E2]. destruct (inAlt (obj s)) eqn:A.
    + rewrite E1 in H by reflexivity. destruct r; [discriminate|]. injection H as <-. rewrite A. auto.
    + specialize (E2 eq_refl). rewrite H in E2. destruct E2 as (_ & _ & E & _ & _ & _ & F). rewrite E. destruct r; destruct F as [F _]; rewrite F; auto.
  - destruct (any_call mode TmModel.ExitAltScreen s s' _ R Q H) as [R' Q']. split; [exact R'|]. split; [exact Q'|]. destruct (exit_alt close_ok s I) as [E1 E2]. destruct (inAlt (obj s)) eqn:A.
    + specialize (E2 eq_refl). rewrite H in E2. destruct E2 as (_ & _ & E & _ & _ & _ & _ & F). rewrite E. destruct r; [destruct F as [F _]; rewrite F|destruct F as [-> _]; rewrite A]; auto.
    + rewrite E1 in H by reflexivity. destruct r; [discriminate|]. injection H as <-. rewrite A. split; [discriminate|auto].
  - destruct H as [-> ->]. auto.
  - destruct (any_call mode TmModel.EnterRawMode s s' _ R Q H) as [R' Q']. split; [exact R'|]. split; [exact Q'|].
    destruct s as [[ou og al ia ir om] sv d o]. unfold EnterRawMode, bind, get in H. cbn [obj inRaw inAlt] in *. destruct ir.
    + unfold fail in H. destruct r; [discriminate|]. injection H as <-. cbn. auto.
    + unfold GetMode, sys in H. cbn [orc device obj saved] in H. destruct (TmModel.ask o) as [[|] o1]; [|destruct r; [discriminate|]; injection H as <-; cbn; auto].
      unfold put_obj, SetMode, sys in H. cbn [orc device obj saved] in H. destruct (TmModel.ask o1) as [[|] o2]; destruct r; try discriminate; injection H as <-; cbn; auto.
  - destruct (any_call mode TmModel.ExitRawMode s s' _ R Q H) as [R' Q']. split; [exact R'|]. split; [exact Q'|].
    destruct s as [[ou og al ia ir om] sv d o]. unfold ExitRawMode, bind, get in H. cbn [obj inRaw inAlt] in *. destruct ir; cbn [negb] in H.
    + unfold put_obj, SetMode, sys in H. cbn [orc device obj saved] in H. destruct (TmModel.ask o) as [[|] o2]; destruct r; try discriminate; injection H as <-; cbn; auto.
    + unfold fail in H. destruct r; [discriminate|]. injection H as <-. cbn. split; [discriminate|auto].
  - destruct H as [-> ->]. auto.
Qed.
Lemma truthful_app cs c r : forall a w, truthful a w (cs ++ [(c, r)]) <-> truthful a w cs /\ truthful1 (alt_end cs a) (raw_end cs w) c r.
Proof using.
  induction cs as [|[c1 r1] cs IH]; intros a w; cbn [app truthful]; [unfold alt_end, raw_end; cbn; tauto|]. rewrite IH. unfold alt_end, raw_end. cbn [fold_left fst snd]. tauto.
Qed.
Lemma run_spec b mode o cs s : wf_buf b -> one_by_one (start b mode o) cs s ->
  reached s /\ raw_inv mode s /\ truthful false false cs /\ inAlt (obj s) = alt_end cs false /\ inRaw (obj s) = raw_end cs false.
Proof using.
  intros W O. remember (start b mode o) as x0 eqn:E0. induction O as [x|x cs x1 c r x2 O IH A]; subst x.
  - split; [exists b, mode, o, []; split; [exact W|reflexivity]|]. repeat split.
  - destruct (IH eq_refl) as (R & Q & T & Al & Ra). apply alone_call in A. destruct (returns_step c x1 r x2 mode R Q A) as (R' & Q' & T' & Al' & Ra').
    split; [exact R'|]. split; [exact Q'|]. rewrite Al, Ra in T'. split; [apply truthful_app; auto|]. unfold alt_end, raw_end in *. rewrite !fold_left_app. cbn [fold_left fst snd]. rewrite <- Al, <- Ra. auto.
Qed.

(* ---------- C359 ---------- *)
(** Whatever goroutines make whatever mode calls under whatever schedule, and whichever Win32 calls fail: the calls have taken effect in
    some order that keeps each goroutine's own; each returned the truth in that order; and whenever no call is under way the two
    questions are answered by the truth about the device, and no screen buffer but the visible one is left open. *)
Theorem C359_modes_concurrent : forall b mode o ps sched, wf_buf b -> let s := w_exec sched (start b mode o) ps in
  exists order, truthful false false (map snd order) /\
    (forall i th, nth_error (ths s) i = Some th -> of_thread _ _ i order = done th ++ match MxModel.st th with Leaving c r => [(c, r)] | _ => [] end) /\
    (forall i th p, nth_error (ths s) i = Some th -> nth_error ps i = Some p -> exists rest, p = map fst (done th) ++ rest /\ (finished s -> rest = [])) /\
    (Forall (fun th => MxModel.st th = Idle) (ths s) ->
       let alt := alt_end (map snd order) false in let raw := raw_end (map snd order) false in let x := sh s in
       IsInAltScreen x = alt /\ (alt = true <-> active (device x) <> 0%nat) /\ IsInRawMode x = raw /\
       (raw = false -> imode (device x) = mode) /\
       (raw = true -> forall i, 0 <= i -> Z.testbit (imode (device x)) i = if i <? 3 then false else if i =? 9 then true else Z.testbit mode i) /\
       ((forall h, close_ok h = true) -> forall h b', buf_of (device x) h = Some b' -> h = 0%nat \/ (alt = true /\ h = active (device x)))).
Proof using.
  intros b mode o ps sched W s. unfold WcMxModel.w_exec in s.
  destruct (lock_serialises _ _ _ _ unit unit w_lock w_first (w_next close_ok) w_out ltac:(discriminate) (start b mode o) tt (map (map Do) ps) sched) as (order & base & O & Dn & Pr & Re & Le & _).
  fold s in Dn, Pr, Re. destruct (run_spec _ _ _ _ _ W O) as (R & Q & Tr & A1 & A2). exists order. split; [exact Tr|]. split; [exact Dn|]. split.
  - intros i th p E P. specialize (Pr i th (map Do p) E ltac:(rewrite nth_error_map, P; reflexivity)).
    assert (C : calls_of wcall unit (map Do p) = p) by (clear; induction p as [|c p IH]; [reflexivity|]; unfold calls_of in *; cbn [map flat_map]; rewrite IH; reflexivity). rewrite C in Pr.
    eexists. split; [exact Pr|]. intros F. unfold finished in F. rewrite Forall_forall in F. destruct (F th (nth_error_In _ _ E)) as [F1 F2]. unfold in_progress. rewrite F1, F2. reflexivity.
  - intros Qu. assert (B : sh s = base) by (apply Re; eapply Forall_impl; [|exact Qu]; unfold holds; intros th ->; reflexivity). cbv zeta. rewrite B.
    split; [exact A1|]. split; [rewrite <- A1; exact (C235_alt_flag idput close_ok base idsane R)|]. split; [exact A2|]. unfold raw_inv in Q. split; [|split].
    + intros Hr. rewrite A2, Hr in Q. exact Q.
    + intros Hr i Hi. rewrite A2, Hr in Q. destruct Q as [-> _]. unfold raw_mode. rewrite Z.lor_spec, Z.ldiff_spec. change (Z.lor (Z.lor 2 4) 1) with (Z.ones 3). change 512 with (2 ^ 9).
      rewrite Z.pow2_bits_eqb by lia. rewrite Z.testbit_ones_nonneg by lia. destruct (i <? 3) eqn:E; [replace (9 =? i) with false by lia; now rewrite andb_false_r|].
      cbn [negb]. rewrite andb_true_r. destruct (i =? 9) eqn:E2; [replace (9 =? i) with true by lia; apply orb_true_r|replace (9 =? i) with false by lia; apply orb_false_r].
    + intros Cl h b' Hb. destruct (C235_no_leak idput close_ok base h b' idsane Cl R Hb) as [H|[H1 H2]]; [left; exact H|right]. split; [rewrite <- A1; exact H1|exact H2].
Qed.
(* no failure ahead stays so *)
Definition keeps_nil {A} (m : M A) : Prop := forall s, orc s = [] -> orc (snd (m s)) = [].
Lemma kn_bind {A B} (m : M A) (k : A -> M B) : keeps_nil m -> (forall x, keeps_nil (k x)) -> keeps_nil (bind m k).
Proof using. intros H K s E. unfold bind. pose proof (H s E) as H1. destruct (m s) as [[x|] s1]; cbn [snd] in *; [apply K; exact H1|exact H1]. Qed.
Lemma kn_sys {A} (f : dev -> option (A * dev)) : keeps_nil (WcModel.sys f).
Proof using. intros s E. unfold WcModel.sys. rewrite E. cbn. destruct (f (device s)) as [[x d]|]; reflexivity. Qed.
Lemma kn_basic : keeps_nil get /\ (forall c, keeps_nil (put_obj c)) /\ (forall A, keeps_nil (@fail A)) /\ (forall A (x : A), keeps_nil (ret x)) /\ (forall h, keeps_nil (CloseHandle close_ok h)).
Proof using. repeat split; intros; intros s E; try exact E. unfold CloseHandle. cbn. destruct (close_ok h); exact E. Qed.
Lemma kn_calls c : keeps_nil (do_call (tm_call c)).
Proof using.
  destruct kn_basic as (Kg & Kp & Kf & Kr & Kc).
  assert (E1 : keeps_nil (EnterAltScreen close_ok)).
  { unfold EnterAltScreen. apply kn_bind; [exact Kg|]. intros x. destruct (inAlt x); [apply Kf|]. apply kn_bind; [apply Kp|]. intros _. apply kn_bind; [apply kn_sys|]. intros h.
    apply kn_bind; [exact Kg|]. intros c1. apply kn_bind; [apply Kp|]. intros _ s E. pose proof (kn_sys (fun d => match buf_of d h with None => None | Some _ => Some (tt, Dev (bufs d) h (imode d)) end) s E) as H.
    unfold SetActive. destruct (WcModel.sys _ s) as [[[]|] s1]; cbn [snd] in H.
    - apply (kn_bind get); [exact Kg|intros; apply Kp|exact H].
    - apply (kn_bind (CloseHandle close_ok h)); [apply Kc| |exact H]. intros _. apply kn_bind; [exact Kg|]. intros c2. apply kn_bind; [apply Kp|]. intros _. apply Kf. }
  assert (E2 : keeps_nil (ExitAltScreen close_ok)).
  { unfold ExitAltScreen. apply kn_bind; [exact Kg|]. intros x. destruct (negb (inAlt x)); [apply Kf|]. apply kn_bind; [apply kn_sys|]. intros _. apply kn_bind; [destruct (alt x); [apply Kc|apply Kr]|].
    intros _. apply kn_bind; [exact Kg|]. intros c1. apply Kp. }
  assert (E3 : keeps_nil EnterRawMode).
  { unfold EnterRawMode. apply kn_bind; [exact Kg|]. intros x. destruct (inRaw x); [apply Kf|]. apply kn_bind; [apply kn_sys|]. intros m. apply kn_bind; [apply Kp|]. intros _. apply kn_bind; [apply kn_sys|]. intros _. apply Kp. }
  assert (E4 : keeps_nil ExitRawMode).
  { unfold ExitRawMode. apply kn_bind; [exact Kg|]. intros x. destruct (negb (inRaw x)); [apply Kf|]. apply kn_bind; [apply kn_sys|]. intros _. apply Kp. }
  destruct c; assumption.
Qed.
Lemma returns_nil c s r s' : reached s -> orc s = [] -> returns close_ok c s r s' -> orc s' = [] /\ r = answer (inAlt (obj s)) (inRaw (obj s)) c.
Proof using.
  intros R E H. destruct (C235_twice idput close_ok s idsane R) as (T1 & T2 & T3 & T4). destruct (C235_succeeds idput close_ok s idsane R E) as (S1 & S2 & S3 & S4). unfold IsInAltScreen, IsInRawMode in *.
  pose proof (kn_calls c s E) as K. unfold returns in H. destruct c; cbn [the_call tm_call answer WcModel.do_call] in *; try (subst; intuition (subst; auto); fail); rewrite H in *; cbn [fst snd] in *; (split; [exact K|]).
  - destruct (inAlt (obj s)); [specialize (T1 eq_refl)|specialize (S1 eq_refl)]; destruct r; cbn; congruence.
  - destruct (inAlt (obj s)); [specialize (S2 eq_refl)|specialize (T2 eq_refl)]; destruct r; cbn; congruence.
  - destruct (inRaw (obj s)); [specialize (T3 eq_refl)|specialize (S3 eq_refl)]; destruct r; cbn; congruence.
  - destruct (inRaw (obj s)); [specialize (S4 eq_refl)|specialize (T4 eq_refl)]; destruct r; cbn; congruence.
Qed.
Lemma answers_app cs c r : forall a w, answers a w (cs ++ [(c, r)]) <-> answers a w cs /\ r = answer (alt_end cs a) (raw_end cs w) c.
Proof using.
  induction cs as [|[c1 r1] cs IH]; intros a w; cbn [app answers]; [unfold alt_end, raw_end; cbn; tauto|]. rewrite IH. unfold alt_end, raw_end. cbn [fold_left fst snd]. tauto.
Qed.
(** When no Win32 call fails, every call made in the opposite mode succeeds. *)
Theorem C359_answers : forall b mode ps sched, wf_buf b -> let s := w_exec sched (start b mode []) ps in
  exists order, answers false false (map snd order) /\
    (forall i th, nth_error (ths s) i = Some th -> of_thread _ _ i order = done th ++ match MxModel.st th with Leaving c r => [(c, r)] | _ => [] end).
Proof using.
  intros b mode ps sched W s. unfold WcMxModel.w_exec in s.
  destruct (lock_serialises _ _ _ _ unit unit w_lock w_first (w_next close_ok) w_out ltac:(discriminate) (start b mode []) tt (map (map Do) ps) sched) as (order & base & O & Dn & _).
  exists order. split; [|exact Dn]. clear Dn s. generalize dependent base. generalize (map snd order). intros cs base O.
  assert (G : orc base = [] /\ answers false false cs); [|tauto].
  remember (start b mode []) as x0 eqn:E0. induction O as [x|x cs x1 c r x2 O IH A]; [subst x; split; [reflexivity|exact Logic.I]|]. subst x.
  destruct (IH eq_refl) as (E & An). destruct (run_spec _ _ _ _ _ W O) as (R & _ & _ & A1 & A2). apply alone_call in A. destruct (returns_nil _ _ _ _ R E A) as [E' Hr].
  split; [exact E'|]. apply answers_app. rewrite <- A1, <- A2. auto.
Qed.
Theorem C359_no_deadlock : forall b mode o ps sched, let s := w_exec sched (start b mode o) ps in ~ finished s -> exists i, step w_lock w_first (w_next close_ok) w_out i s <> None.
Proof using. intros b mode o ps sched s N. unfold s, WcMxModel.w_exec in *. apply lock_no_deadlock. exact N. Qed.
End Q.

Lemma wins_cons p c r l : wins p ((c, r) :: l) = (if p c && r then 1 else 0) + wins p l.
Proof. unfold wins. cbn [filter fst snd]. destruct (p c && r); cbn [length]; lia. Qed.
(** In any truthful order the successful enters exceed the successful exits by one exactly while the mode is on. *)
Theorem C359_one_winner : forall cs, truthful false false cs ->
  wins is_enter_alt cs = wins is_exit_alt cs + (if alt_end cs false then 1 else 0) /\
  wins is_enter_raw cs = wins is_exit_raw cs + (if raw_end cs false then 1 else 0).
Proof.
  assert (G : forall cs a w, truthful a w cs -> (if a then 1 else 0) + wins is_enter_alt cs = wins is_exit_alt cs + (if alt_end cs a then 1 else 0) /\
    (if w then 1 else 0) + wins is_enter_raw cs = wins is_exit_raw cs + (if raw_end cs w then 1 else 0)).
  { induction cs as [|[c r] cs IH]; intros a w A; [split; unfold wins, alt_end, raw_end; cbn; lia|]. cbn [truthful] in A. destruct A as [T A]. specialize (IH _ _ A).
    unfold alt_end, raw_end in *. cbn [fold_left fst snd]. rewrite !wins_cons.
    destruct c, a, w, r; cbn [truthful1 alt_next raw_next is_enter_alt is_exit_alt is_enter_raw is_exit_raw andb orb negb] in *;
      try (specialize (T eq_refl); discriminate T); try solve [discriminate T]; lia. }
  intros cs A. destruct (G cs false false A) as [G1 G2]. cbv iota in G1, G2. split; lia.
Qed.
(** Three goroutines: two enter the alternate screen, the second one is refused; one asks. *)
Example C359_ex : let s := w_exec (fun _ => true) [0; 0; 1; 0; 2; 0; 0; 0; 0; 0; 0; 0; 1; 2; 1; 1; 1; 2; 2; 2; 2; 2; 2]%nat (start (Buf 4 3 4 3 (fun _ => 32) (fun _ => 7) 7 0 0 true 25) 7 []) [[WEnterAlt]; [WEnterAlt]; [WIsAlt]] in
  map done (ths s) = [[(WEnterAlt, true)]; [(WEnterAlt, false)]; [(WIsAlt, true)]] /\ Forall (fun th => MxModel.st th = Idle) (ths s) /\ active (device (sh s)) = 1%nat.
Proof. vm_compute. split; [reflexivity|]. split; [repeat constructor|reflexivity]. Qed.

(* ---------- C360 ---------- *)
(** Clear takes no lock: between its first half, which asks for the size of the screen, and its second, which fills the screen that the
    object's handle names by then, another goroutine's ExitAltScreen can run whole. What then is cleared is the user's own screen. *)
Definition clear_first : M buf := refreshInfo.
Definition clear_rest (i : buf) : M unit :=
  let! c := get in
  let! _ := FillChar (out c) 32 (bw i * bh i) 0 0 in
  let! _ := FillAttr (out c) (def i) (bw i * bh i) 0 0 in
  SetCursorPosition 0 0.
(* the halves, one after the other, are Clear (console.go:314-353) *)
Lemma clear_halves : Clear = bind clear_first clear_rest.
Proof. reflexivity. Qed.
Theorem C360_clear_race_refuted : forall close_ok, exists s b s1 i s2 s3 s4 b',
  (* a console on the alternate screen above a main screen that shows text *)
  EnterAltScreen close_ok s = (Some tt, s1) /\ visible s = Some b /\ char_at b 0 0 <> 32 /\
  clear_first s1 = (Some i, s2) /\ ExitAltScreen close_ok s2 = (Some tt, s3) /\ clear_rest i s3 = (Some tt, s4) /\
  visible s4 = Some b' /\ forall x y, cell b' x y -> char_at b' x y = 32.
Proof.
  intros close_ok. exists (start (Buf 2 1 2 1 (fun _ => 65) (fun _ => 7) 7 0 0 true 25) 7 []).
  destruct (close_ok 1%nat) eqn:C.
  all: eexists; eexists; eexists; eexists; eexists; eexists; eexists; split; [lazy; reflexivity|]; split; [lazy; reflexivity|]; split; [lazy; discriminate|]; split; [lazy; reflexivity|].
  all: split; [lazy; rewrite C; lazy; reflexivity|]; split; [lazy; reflexivity|]; split; [lazy; reflexivity|].
  all: intros x y [Hx Hy]; cbn in Hx, Hy; assert (y = 0) by lia; subst y; assert (D : x = 0 \/ x = 1) by lia; destruct D as [-> | ->]; reflexivity.
Qed.

Print Assumptions C359_modes_concurrent. Print Assumptions C359_answers. Print Assumptions C359_no_deadlock. Print Assumptions C359_one_winner.
Print Assumptions C360_clear_race_refuted.
