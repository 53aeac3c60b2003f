From Verif Require Import Prelude LifeModel LifeSpec.

Ltac life_unfold :=
  unfold do, exec_with_tty, exec_process, run_begin, start_begin, loop_end, suspend, resume, cleanup,
    enter_raw, exit_raw, enter_alt, exit_alt, set_cursor, set_fg, ask in *.
Ltac life :=
  repeat (cbn [raw alt cur fg_child oracle altcfg running susp reader pr wo fst snd negb andb orb] in *;
    match goal with
    | H : Forall _ (_ :: _) |- _ => apply Forall_cons_iff in H as [? H]; subst
    | H : context [match ?x with _ => _ end] |- _ => is_var x; destruct x
    | |- context [match ?x with _ => _ end] => is_var x; destruct x
    | H : context [match negb ?x with _ => _ end] |- _ => is_var x; destruct x
    | |- context [match negb ?x with _ => _ end] => is_var x; destruct x
    | H : context [match ?x && _ with _ => _ end] |- _ => is_var x; destruct x
    | |- context [match ?x && _ with _ => _ end] => is_var x; destruct x
    | H : true = true -> _ |- _ => specialize (H eq_refl)
    | H : false = false -> _ |- _ => specialize (H eq_refl)
    | H : true = false |- _ => discriminate H
    | H : false = true |- _ => discriminate H
    | H : (_, _) = (_, _) |- _ => apply pair_equal_spec in H as [? ?]; subst
    | H : Some _ = Some _ |- _ => injection H as ?; subst
    | H : None = Some _ |- _ => discriminate H
    | H : Some _ = None |- _ => discriminate H
    | H : _ /\ _ |- _ => destruct H
    | H : Sy _ _ = Sy _ _ |- _ => injection H as ?; subst
    end).
Ltac open_sys s :=
  let a := fresh "ac" in let r := fresh "run" in let u := fresh "su" in let e := fresh "rd" in
  destruct s as [[a r u e] [w_raw w_alt w_cur w_fg w_or]].


(** Induction over calls: exec is suspend, foreground changes and resume. [R] is what is known
    whenever resume runs. *)
Definition set_fg_sys (v : bool) (s : sys) : sys := Sy (pr s) (snd (set_fg v (wo s))).
Lemma sys_eta s : Sy (pr s) (wo s) = s.
Proof. destruct s; reflexivity. Qed.

Lemma do_ind (P R : sys -> Prop) :
  (forall s, P s -> P (snd (run_begin s))) -> (forall s, P s -> P (snd (start_begin s))) ->
  (forall s, P s -> P (loop_end s)) ->
  (forall s, P s -> P (snd (suspend s))) -> (forall s, P s -> R s -> P (snd (resume s))) ->
  (forall v s, P s -> P (set_fg_sys v s)) ->
  (forall s, R s -> R (snd (suspend s))) -> (forall v s, R s -> R (set_fg_sys v s)) ->
  forall c s, P s -> (resumes c = true -> R s) -> P (do c s).
Proof.
  intros Hr Hst He Hsu Hre Hfg Rs Rf c s HP HR.
  assert (EX : R s -> P (snd (exec_process s))).
  { intros HR'. unfold exec_process. specialize (Hsu s HP). specialize (Rs s HR').
    destruct (suspend s) as [ok s1]. cbn [snd] in *. destruct ok; cbn [negb]; auto.
    specialize (Hre s1 Hsu Rs). destruct (resume s1); auto. }
  destruct c; cbn [do resumes] in *; auto.
  specialize (HR eq_refl). unfold exec_with_tty. destruct isTTY; cbn [negb]; auto.
  specialize (Hsu s HP). specialize (Rs s HR). destruct (suspend s) as [ok s1]. cbn [snd] in *.
  destruct ok; cbn [negb]; auto. destruct starts; cbn [negb].
  2:{ specialize (Hre s1 Hsu Rs). destruct (resume s1); auto. }
  assert (F : forall v s, (let (ok, w) := set_fg v (wo s) in P (Sy (pr s) w) /\ R (Sy (pr s) w)) <-> P (set_fg_sys v s) /\ R (set_fg_sys v s)).
  { intros v x. unfold set_fg_sys. destruct (set_fg v (wo x)); cbn [snd]. tauto. }
  destruct transfer.
  - pose proof (conj (Hfg true s1 Hsu) (Rf true s1 Rs)) as Q. apply F in Q.
    destruct (set_fg true (wo s1)) as [ok w]. destruct Q as [Q1 Q2]. destruct ok; cbn [negb pr wo].
    + pose proof (Hfg false _ Q1) as Q3. pose proof (Rf false _ Q2) as Q4. unfold set_fg_sys in Q3, Q4. cbn [pr wo] in Q3, Q4.
      specialize (Hre _ Q3 Q4). destruct (resume _); auto.
    + specialize (Hre _ Q1 Q2). destruct (resume _); auto.
  - cbn [negb pr wo]. rewrite !sys_eta. specialize (Hre s1 Hsu Rs). destruct (resume s1); auto.
Qed.

(** The alternate screen is only ever entered by a program configured for it. *)
Definition alt_ok (s : sys) : Prop :=
  (alt (wo s) = true -> altcfg (pr s) = true) /\
  match susp (pr s) with Some (_, a) => a = true -> altcfg (pr s) = true | None => True end.

Ltac crunch s := open_sys s; unfold set_fg_sys, alt_ok in *; life_unfold; life; try split; cbn in *; auto; try congruence.

Ltac crunch2 s := open_sys s; unfold set_fg_sys, alt_ok in *; life_unfold; life; repeat split; cbn in *; intros; life; auto; try congruence; try tauto; try (repeat match goal with H : _ -> _ |- _ => specialize (H eq_refl) end; life; congruence).

Lemma alt_ok_do c s : alt_ok s -> alt_ok (do c s).
Proof.
  intros H. apply (do_ind alt_ok (fun _ => True)); auto; clear.
  - intros s H. crunch s.
  - intros s H. crunch s.
  - intros s H. crunch s.
  - intros s H. crunch s.
  - intros s H _. crunch s.
  - intros v s H. crunch s.
Qed.
Lemma alt_ok_hist cs : forall s, alt_ok s -> alt_ok (hist cs s).
Proof. induction cs as [|c cs IH]; intros s H; cbn; auto. apply IH. apply alt_ok_do; auto. Qed.
Lemma alt_ok_fresh a o : alt_ok (fresh a o).
Proof. split; cbn; auto. discriminate. Qed.

Lemma loop_end_restores s : alt_ok s -> running (pr s) = true -> accepts (wo s) ->
  normal (wo (loop_end s)) /\ running (pr (loop_end s)) = false.
Proof. intros H Hr Ha. unfold accepts, normal in *. crunch s; try (exfalso; repeat match goal with H : _ -> _ |- _ => specialize (H eq_refl) end; life; congruence). Qed.

(** Perfect device, Resume only while running: normal whenever not running. *)
Definition calm (s : sys) : Prop :=
  alt_ok s /\ accepts (wo s) /\ (running (pr s) = false -> normal (wo s)).

Lemma calm_do c s : calm s -> (resumes c = true -> running (pr s) = true) -> calm (do c s).
Proof.
  intros H HR. apply (do_ind calm (fun s => running (pr s) = true)); auto; clear; unfold calm, accepts, normal.
  - intros s H. crunch2 s.
  - intros s H. crunch2 s.
  - intros s H. crunch2 s.
  - intros s H. crunch2 s.
  - intros s H Hr. crunch2 s.
  - intros v s H. crunch2 s.
  - intros s H. crunch2 s.
Qed.
Lemma calm_hist cs : forall s, calm s -> orderly cs s -> calm (hist cs s).
Proof.
  induction cs as [|c cs IH]; intros s H Ho; cbn in *; auto. destruct Ho. apply IH; auto. apply calm_do; auto.
Qed.

Lemma cursor_hist cs : forall s, forallb (fun c => negb (touches_cursor c)) cs = true ->
  cur (wo (hist cs s)) = cur (wo s).
Proof.
  induction cs as [|c cs IH]; intros s H; cbn in *; auto. apply andb_prop in H as [H1 H2]. rewrite IH by auto.
  destruct c; try discriminate H1; crunch s.
Qed.

(* ---------- suspend and resume ---------- *)

Lemma suspend_ok s s1 : suspended s = false -> suspend s = (true, s1) ->
  suspended s1 = true /\ normal (wo s1) /\ susp (pr s1) = Some (modes (wo s)) /\
  running (pr s1) = running (pr s) /\ reader (pr s1) = false /\ altcfg (pr s1) = altcfg (pr s).
Proof. unfold suspended, normal, modes. intros H E. open_sys s. life_unfold; life; repeat split; cbn in *; auto; congruence. Qed.

Lemma resume_ok m s s1 : normal (wo s) -> susp (pr s) = Some m -> resume s = (true, s1) ->
  suspended s1 = false /\ modes (wo s1) = m /\ running (pr s1) = running (pr s) /\ reader (pr s1) = true.
Proof. unfold suspended, normal, modes. intros Hn H E. open_sys s. life_unfold; life; repeat split; cbn in *; auto; congruence. Qed.

Lemma resume_succeeds m s : normal (wo s) -> susp (pr s) = Some m -> accepts (wo s) -> fst (resume s) = true.
Proof. unfold suspended, normal, modes, accepts. intros Hn H E. open_sys s. life_unfold; life; repeat split; cbn in *; auto; congruence. Qed.

Lemma suspend_failed s s1 : suspended s = false -> suspend s = (false, s1) ->
  suspended s1 = false /\ alt (wo s1) = alt (wo s) /\ (accepts (wo s1) -> cur (wo s1) = cur (wo s)) /\ reader (pr s1) = true.
Proof. unfold suspended, normal, modes. intros H E. open_sys s. life_unfold; life; repeat split; cbn in *; auto; congruence. Qed.

Lemma resume_failed s s1 : resume s = (false, s1) ->
  suspended s1 = true /\ susp (pr s1) = susp (pr s) /\ raw (wo s1) = raw (wo s) /\ running (pr s1) = running (pr s).
Proof. unfold suspended, normal, modes. intros E. open_sys s. life_unfold; life; repeat split; cbn in *; auto; congruence. Qed.

Lemma suspend_idem s : suspended s = true -> suspend s = (true, s).
Proof. unfold suspended. intros H. open_sys s. life_unfold; life; auto. Qed.
Lemma resume_idem s : suspended s = false -> resume s = (true, s).
Proof. unfold suspended. intros H. open_sys s. life_unfold; life; auto. Qed.

(** A resume that failed before the alternate screen, or of a program that was not in it,
    leaves a state from which it can be retried. *)
Lemma resume_retry m s s1 : normal (wo s) -> susp (pr s) = Some m -> resume s = (false, s1) ->
  alt (wo s1) = false -> accepts (wo s1) ->
  exists s2, resume s1 = (true, s2) /\ modes (wo s2) = m /\ suspended s2 = false.
Proof.
  unfold suspended, normal, modes, accepts. intros Hn H E Ha Hac. open_sys s. 
  life_unfold; life; eexists; repeat split; cbn in *; auto; congruence.
Qed.

(** Once resume has failed at raw mode after entering the alternate screen, it always fails. *)
Lemma resume_dead s r : alt (wo s) = true -> susp (pr s) = Some (r, true) ->
  exists s1, resume s = (false, s1) /\ alt (wo s1) = true /\ susp (pr s1) = Some (r, true).
Proof. intros Ha Hs. open_sys s. life_unfold; life; eexists; repeat split; cbn in *; auto; congruence. Qed.

(* ---------- exec ---------- *)
Lemma suspend_modes_failed s s1 : suspended s = false -> suspend s = (false, s1) ->
  (raw (wo s) = true -> raw (wo s1) = false -> exists b o, oracle (wo s) = b :: false :: false :: o).
Proof. unfold suspended. intros H E. open_sys s. life_unfold; life; intros; life; eauto; congruence. Qed.

Lemma exec_ok s sn s1 : suspended s = false -> exec_process s = (true, sn, s1) ->
  sn = Some (false, false) /\ suspended s1 = false /\ modes (wo s1) = modes (wo s).
Proof.
  intros Hu. unfold exec_process. destruct (suspend s) as [ok s0] eqn:E. destruct ok; cbn [negb]; [|discriminate].
  destruct (suspend_ok s s0 Hu E) as (A & B & C & _). destruct (resume s0) as [ok1 s2] eqn:E2.
  intros H. injection H as -> <- <-. destruct (resume_ok _ s0 s2 B C E2) as (D & F & _).
  destruct B as [B1 B2]. rewrite B1, B2. auto.
Qed.

Lemma set_fg_keeps v w ok w1 : set_fg v w = (ok, w1) -> modes w1 = modes w /\ (accepts w -> ok = true /\ accepts w1 /\ fg_child w1 = v).
Proof.
  unfold set_fg, ask, modes, accepts. destruct w as [a b c d o]. intros H. life; cbn; auto; split; auto; intros; life; auto.
Qed.

Lemma exec_tty_ok a b c s sn s1 : suspended s = false -> exec_with_tty a b c s = (true, sn, s1) ->
  sn = Some (false, false) /\ suspended s1 = false /\ modes (wo s1) = modes (wo s).
Proof.
  intros Hu. unfold exec_with_tty. destruct a; cbn [negb]; [|apply exec_ok; auto].
  destruct (suspend s) as [ok s0] eqn:E. destruct ok; cbn [negb]; [|discriminate].
  destruct (suspend_ok s s0 Hu E) as (A & [B1 B2] & C & _).
  destruct b; cbn [negb]; [|destruct (resume s0); discriminate].
  assert (FIN : forall w, modes w = (false, false) ->
    (let (ok, s2) := resume (Sy (pr s0) w) in (ok, Some (false, false), s2)) = (true, sn, s1) ->
    sn = Some (false, false) /\ suspended s1 = false /\ modes (wo s1) = modes (wo s)).
  { intros w Hm H. destruct (resume (Sy (pr s0) w)) as [ok s2] eqn:E2. injection H as -> <- <-.
    unfold modes in Hm. injection Hm as M1 M2.
    destruct (resume_ok (modes (wo s)) (Sy (pr s0) w) s2 (conj M1 M2) C E2) as (D & F & _). auto. }
  destruct c.
  - destruct (set_fg true (wo s0)) as [ok w] eqn:E1. destruct (set_fg_keeps _ _ _ _ E1) as [M1 _].
    destruct ok; cbn [negb]; [|destruct (resume _); discriminate]. cbn [wo pr].
    destruct (set_fg false w) as [ok2 w2] eqn:E3. destruct (set_fg_keeps _ _ _ _ E3) as [M2 _]. cbn [snd].
    assert (M0 : modes w = (false, false)) by (rewrite M1; unfold modes; rewrite B1, B2; auto).
    assert (R : raw w = false /\ alt w = false) by (unfold modes in M0; injection M0; auto). destruct R as [R1 R2]. rewrite R1, R2.
    apply FIN. congruence.
  - cbn [negb wo pr]. rewrite B1, B2. apply FIN. unfold modes. rewrite B1, B2. auto.
Qed.

Lemma suspend_accepts s : accepts (wo s) -> fst (suspend s) = true /\ accepts (wo (snd (suspend s))) /\ fg_child (wo (snd (suspend s))) = fg_child (wo s).
Proof. unfold accepts. intros H. open_sys s. life_unfold; life; cbn; auto. Qed.

Lemma resume_keeps_fg s : fg_child (wo (snd (resume s))) = fg_child (wo s).
Proof. open_sys s. life_unfold; life; cbn; auto. Qed.

Lemma exec_tty_accepts a b c s : suspended s = false -> accepts (wo s) -> fg_child (wo s) = false ->
  let '(ok, sn, s1) := exec_with_tty a b c s in
  modes (wo s1) = modes (wo s) /\ suspended s1 = false /\ fg_child (wo s1) = false /\ (sn = None \/ sn = Some (false, false)).
Proof.
  intros Hu Ha Hf. destruct (suspend_accepts s Ha) as (S1 & S2 & S3).
  unfold exec_with_tty, exec_process. destruct (suspend s) as [ok s0] eqn:E. cbn [fst snd] in *. subst ok.
  destruct (suspend_ok s s0 Hu E) as (A & [B1 B2] & C & _). cbn [negb].
  assert (FIN : forall w, modes w = (false, false) -> accepts w -> fg_child w = false ->
    let (ok, s2) := resume (Sy (pr s0) w) in modes (wo s2) = modes (wo s) /\ suspended s2 = false /\ fg_child (wo s2) = false).
  { intros w Hm Hac Hfg. unfold modes in Hm. injection Hm as M1 M2.
    pose proof (resume_succeeds (modes (wo s)) (Sy (pr s0) w) (conj M1 M2) C Hac) as Z.
    pose proof (resume_keeps_fg (Sy (pr s0) w)) as Y.
    destruct (resume (Sy (pr s0) w)) as [ok s2] eqn:E2. cbn [fst snd wo] in *. subst ok.
    destruct (resume_ok (modes (wo s)) (Sy (pr s0) w) s2 (conj M1 M2) C E2) as (D & F & _).
    split; auto. split; auto. congruence. }
  assert (M0 : modes (wo s0) = (false, false)) by (unfold modes; rewrite B1, B2; auto).
  assert (F0 : fg_child (wo s0) = false) by congruence.
  pose proof (FIN (wo s0) M0 S2 F0) as F1. rewrite sys_eta in F1.
  destruct a; cbn [negb].
  2:{ destruct (resume s0). rewrite B1, B2. destruct F1 as (?&?&?). auto. }
  destruct b; cbn [negb].
  2:{ destruct (resume s0). destruct F1 as (?&?&?). auto. }
  destruct c.
  - destruct (set_fg true (wo s0)) as [ok w] eqn:E1. destruct (set_fg_keeps _ _ _ _ E1) as [M1 K1].
    destruct (K1 S2) as (-> & K2 & _). cbn [negb wo pr].
    destruct (set_fg false w) as [ok2 w2] eqn:E3. destruct (set_fg_keeps _ _ _ _ E3) as [M2 K3]. destruct (K3 K2) as (_ & K4 & K5). cbn [snd].
    assert (R : raw w = false /\ alt w = false) by (rewrite M0 in M1; unfold modes in M1; injection M1; auto). destruct R as [R1 R2]. rewrite R1, R2.
    pose proof (FIN w2 ltac:(congruence) K4 K5) as F2. destruct (resume (Sy (pr s0) w2)). destruct F2 as (?&?&?). auto.
  - cbn [negb wo pr]. rewrite sys_eta, B1, B2. destruct (resume s0). destruct F1 as (?&?&?). auto.
Qed.
