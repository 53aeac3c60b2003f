(** Programs that draw single-column characters in buffers that fit the terminal render such frames. *)
From Verif Require Import Prelude RenderModel RenderSpec RenderProofs RpModel RpSpec RpProofs RpSys.

Section Fit.
Variable cw : Z -> Z.
Variables W H : Z.
Hypothesis space : cw 32 = 1.
Hypothesis HW : 0 <= W.
Hypothesis HH : 0 <= H.

Definition good (m : mem) : Prop := Forall (Forall (cell_ok cw)) m.
Definition small (b : hbuf) : Prop := Z.of_nat (hw b) <= W /\ Z.of_nat (hh b) <= H.
Lemma ok_empty : cell_ok cw empty_cell.
Proof. unfold cell_ok, style_ok. cbn. repeat split; lia || auto. Qed.
Lemma Forall_set_nth {A} (P : A -> Prop) (l : list A) x : P x -> forall i, Forall P l -> Forall P (set_nth l i x).
Proof.
  intros Px. induction l as [|h t IH]; intros i Hl; [destruct i; exact Hl|]. inversion Hl; subst. destruct i; cbn; constructor; auto.
Qed.
Lemma good_nth m a : good m -> Forall (cell_ok cw) (nth a m []).
Proof. intros G. destruct (Nat.lt_ge_cases a (length m)) as [Hl|Hl]; [unfold good in G; rewrite Forall_forall in G; apply G, nth_In, Hl|rewrite nth_overflow by lia; constructor]. Qed.
Lemma good_poke m b x y c : good m -> cell_ok cw c -> good (poke m b x y c).
Proof. intros G Hc. apply Forall_set_nth; [|exact G]. apply Forall_set_nth; [exact Hc|]. apply good_nth, G. Qed.
Lemma good_peek m b x y : good m -> cell_ok cw (peek m b x y).
Proof.
  intros G. unfold peek. set (r := nth (nth y (rows b) O) m []). assert (Hr : Forall (cell_ok cw) r) by apply good_nth, G.
  destruct (Nat.lt_ge_cases x (length r)) as [Hl|Hl]; [rewrite Forall_forall in Hr; apply Hr, nth_In, Hl|rewrite nth_overflow by lia; apply ok_empty].
Qed.
Lemma good_loop b f l : (forall m p, good m -> cell_ok cw (f m p)) -> forall m, good m -> good (fold_left (fun m p => poke m b (fst p) (snd p) (f m p)) l m).
Proof. intros Hf. induction l as [|p l IH]; intros m G; cbn; [exact G|]. apply IH, good_poke; auto. Qed.
Lemma good_set m b x y c : good m -> cell_ok cw c -> good (h_set m b x y c).
Proof. intros. unfold h_set. destruct ((x <? 0) || (Z.of_nat (hw b) <=? x) || (y <? 0) || (Z.of_nat (hh b) <=? y)); [assumption|]. apply good_poke; assumption. Qed.
Lemma good_clear m b : good m -> good (h_clear m b).
Proof. intros G. unfold h_clear. apply (good_loop b (fun _ _ => empty_cell)); [intros; apply ok_empty|exact G]. Qed.
Lemma good_clusters b y s cl : Forall (fun g => cell_ok cw (Cell (fst g) s (snd g))) cl -> forall m x n, good m -> good (fst (h_clusters m b x y cl s n)).
Proof.
  induction 1 as [|[ch w] cl Hc Hcl IH]; intros m x n G; cbn [h_clusters]; [exact G|]. destruct (Z.of_nat (hw b) <=? x); [exact G|]. apply IH, good_set; auto.
Qed.
Lemma good_string m b x y cl s : Forall (fun g => cell_ok cw (Cell (fst g) s (snd g))) cl -> good m -> good (fst (h_string m b x y cl s)).
Proof. intros Hc G. unfold h_string. destruct ((y <? 0) || (Z.of_nat (hh b) <=? y) || (x <? 0)); [exact G|]. apply good_clusters; auto. Qed.
Lemma good_blank b y n : forall m x, good m -> good (h_blank m b x y n).
Proof. induction n as [|n IH]; intros m x G; cbn; [exact G|]. apply IH, good_set; [exact G|apply ok_empty]. Qed.
Lemma good_draw m b d : fits_draw cw d -> good m -> good (h_draw m b d).
Proof.
  destruct d as [x y c|x y cl s|y cl s| |c]; cbn [fits_draw h_draw]; intros Hd G.
  - apply good_set; auto.
  - apply good_string; auto.
  - unfold h_line. destruct ((y <? 0) || (Z.of_nat (hh b) <=? y)); [exact G|].
    pose proof (good_string m b 0 y cl s Hd G) as G1. destruct (h_string m b 0 y cl s) as [m' n]. apply good_blank, G1.
  - apply good_clear, G.
  - unfold h_fill. apply (good_loop b (fun _ _ => c)); auto.
Qed.
Lemma good_alloc m w h m' b : w <= W -> h <= H -> alloc m w h = (m', b) -> good m -> good m' /\ small b.
Proof using space HW HH.
  intros Hw Hh E1 G. unfold alloc in E1. injection E1 as <- <-. split.
  - apply Forall_app. split; [exact G|]. apply Forall_forall. intros r Hr. apply repeat_spec in Hr. subst r.
    apply Forall_forall. intros c Hc. apply repeat_spec in Hc. subst c. apply ok_empty.
  - unfold small. cbn [hw hh]. destruct (w <? 0) eqn:?, (h <? 0) eqn:?; cbn; lia.
Qed.
Lemma good_clone m b m' k : h_clone m b = (m', k) -> small b -> good m -> good m' /\ small k.
Proof.
  intros E1 [S1 S2] G. unfold h_clone in E1. destruct (alloc m (Z.of_nat (hw b)) (Z.of_nat (hh b))) as [m1 k1] eqn:Ea. injection E1 as <- <-.
  destruct (good_alloc _ _ _ _ _ S1 S2 Ea G) as [G1 Sk]. split; [|exact Sk].
  apply (good_loop k1 (fun m p => peek m b (fst p) (snd p))); [|exact G1]. intros m0 p G0. apply good_peek, G0.
Qed.
Definition fit (s : st) : Prop :=
  good (memory s) /\ Forall small (map fst (bufs s)) /\ Forall small (pool s) /\ fst (pool_new s) <= W /\ snd (pool_new s) <= H.

Lemma fit_start w h : w <= W -> h <= H -> fit (start w h).
Proof.
  intros Hw Hh. unfold start. destruct (alloc [] w h) as [m k] eqn:Ea. destruct (good_alloc _ _ _ _ _ Hw Hh Ea (Forall_nil _)) as [G _].
  split; [exact G|]. cbn. auto.
Qed.
Lemma fit_p_full m r b m' r' out : p_full m r b = (m', r', out) -> small b -> good m -> good m'.
Proof.
  unfold p_full. destruct (w_clear (pw r)) as [w1 o1]. destruct (w_move w1 0 0) as [w2 o2]. destruct (apply_ops w2 (diff_full (deref m b))) as [w3 o3].
  destruct (h_clone m b) as [m1 k] eqn:Ec. intros E1 S G. injection E1 as <- _ _. apply (good_clone _ _ _ _ Ec S G).
Qed.
Lemma fit_p_render m r b m' r' out : p_render m r b = (m', r', out) -> small b -> good m -> good m'.
Proof.
  unfold p_render. intros E1 S G. destruct (negb _); [exact (fit_p_full _ _ _ _ _ _ E1 S G)|].
  destruct (diff (deref m (hprev r)) (deref m b)) as [|o0 ops0]; [injection E1 as <- _ _; exact G|].
  cbv zeta in E1. destruct (should_full_redraw _ _); [exact (fit_p_full _ _ _ _ _ _ E1 S G)|].
  destruct (apply_ops (pw r) _) as [w1 o1]. destruct (h_clone m b) as [m1 k] eqn:Ec. injection E1 as <- _ _. apply (good_clone _ _ _ _ Ec S G).
Qed.
Lemma fit_p_clear m r m' r' out : p_clear m r = (m', r', out) -> good m -> good m'.
Proof. unfold p_clear. destruct (w_clear (pw r)) as [w1 o1]. destruct (w_move w1 0 0) as [w2 o2]. intros E1 G. injection E1 as <- _ _. apply good_clear, G. Qed.

Lemma small_buf s i b f : Forall small (map fst (bufs s)) -> nth_error (bufs s) i = Some (b, f) -> small b.
Proof. intros F Hi. rewrite Forall_forall in F. apply F. eapply hand; eauto. Qed.
Lemma fit_step s o : fit s -> fits cw W H o -> fit (fst (pstep s o)).
Proof.
  intros (G & Fb & Fp & Fw & Fh) Ho. pose proof (conj G (conj Fb (conj Fp (conj Fw Fh)))) as Fs. change (fit s) in Fs.
  assert (More : forall (bs : list (hbuf * bool)) b f, Forall small (map fst bs) -> small b -> Forall small (map fst (bs ++ [(b, f)]))).
  { intros bs b f F1 F2. rewrite map_app. apply Forall_app. split; [exact F1|]. constructor; [exact F2|constructor]. }
  destruct o as [taken|w h|i d|i|i| |w h| | |i]; cbn [pstep fits] in *; try exact Fs.
  - assert (New : fit (fst (let '(m, b) := alloc (memory s) (fst (pool_new s)) (snd (pool_new s)) in (St (h_clear m b) (rend s) (pool s) (pool_new s) (bufs s ++ [(b, true)]), [] : list Z)))).
    { destruct (alloc (memory s) (fst (pool_new s)) (snd (pool_new s))) as [m b] eqn:Ea. destruct (good_alloc _ _ _ _ _ Fw Fh Ea G) as [G1 Sb].
      split; [apply good_clear, G1|]. split; [apply More; assumption|]. auto. }
    destruct taken as [i|]; [|exact New]. destruct (nth_error (pool s) i) as [b|] eqn:Ei; [|exact New].
    split; [apply good_clear, G|]. split; [apply More; [exact Fb|]|].
    + rewrite Forall_forall in Fp. eapply Fp, nth_error_In; eauto.
    + split; [apply drop_Forall, Fp|auto].
  - destruct (alloc (memory s) w h) as [m b] eqn:Ea. destruct Ho as [Hw Hh]. destruct (good_alloc _ _ _ _ _ Hw Hh Ea G) as [G1 Sb].
    split; [exact G1|]. split; [apply More; assumption|]. auto.
  - destruct (nth_error (bufs s) i) as [[b f]|] eqn:Ei; [|exact Fs]. split; [apply good_draw; assumption|]. auto.
  - destruct (nth_error (bufs s) i) as [[b f]|] eqn:Ei; [|exact Fs]. destruct (p_render (memory s) (rend s) b) as [[m r] out] eqn:Er.
    split; [eapply fit_p_render; eauto; eapply small_buf; eauto|]. auto.
  - destruct (nth_error (bufs s) i) as [[b [|]]|] eqn:Ei; [|exact Fs|exact Fs]. split; [exact G|]. split; [exact Fb|]. split; [|auto].
    cbn. apply Forall_app. split; [exact Fp|]. constructor; [eapply small_buf; eauto|constructor].
  - destruct (p_clear (memory s) (rend s)) as [[m r] out] eqn:Er. split; [eapply fit_p_clear; eauto|]. auto.
  - destruct (alloc (memory s) w h) as [m k] eqn:Ea. destruct Ho as [Hw Hh]. destruct (good_alloc _ _ _ _ _ Hw Hh Ea G) as [G1 Sb].
    destruct (p_clear m (PR (pw (rend s)) k w h)) as [[m2 r] out] eqn:Er. split; [eapply fit_p_clear; eauto|]. cbn. auto.
  - split; [exact G|]. split; [exact Fb|]. split; [apply drop_Forall, Fp|auto].
Qed.
Lemma fit_frames os : forall s, (exists R, inv s R) -> fit s -> Forall (fits cw W H) os -> Forall (call_ok cw W H) (as_calls s os).
Proof.
  induction os as [|o os IH]; intros s [R I] F Ho; [constructor|]. inversion Ho as [|? ? Ho1 Ho2]; subst. cbn [as_calls].
  apply Forall_app. split.
  - destruct o as [taken|w h|i d|i|i| |w h| | |i]; cbn [as_call]; try constructor; try exact Logic.I; try constructor.
    unfold holds. destruct (nth_error (bufs s) i) as [[b f]|] eqn:Ei; cbn [option_map fst]; [|constructor]. constructor; [|constructor]. cbn [call_ok].
    destruct I as (_ & _ & Vb & _). destruct F as (G & Fb & _).
    assert (V : valid (memory s) b) by (rewrite Forall_forall in Vb; apply (Vb (b, f)), (nth_error_In _ _ Ei)).
    destruct (small_buf _ _ _ _ Fb Ei) as [S1 S2]. split; [apply deref_wf, V|]. split; [exact S1|]. split; [exact S2|].
    cbn [deref cells]. apply Forall_forall. intros r Hr. apply in_map_iff in Hr as (a & <- & _). apply good_nth, G.
  - apply IH; [destruct (inv_step s R o I) as (R' & _ & I'); exists R'; exact I'|apply fit_step; assumption|exact Ho2].
Qed.
End Fit.
