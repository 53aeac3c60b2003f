(** One renderer, several goroutines. *)
From Verif Require Import Prelude TermEmu RenderModel RenderSpec RenderProofs RenderProps RpModel RpSpec RpProofs RpSys MxModel MxProofs RmModel.

Notation alone := (alone rsh rpos call unit r_first r_next).
Notation one_by_one := (one_by_one rsh rpos call unit r_first r_next).
Fixpoint body (n : nat) (c : call) (p : rpos) (s : rsh) : option rsh :=
  match n with O => None | S n => match r_next c p s with inr _ => Some s | inl (p', s') => body n c p' s' end end.
Lemma body_on c l x l1 x1 : part _ _ _ _ r_next c l x l1 x1 -> forall n q, body n c l x = Some q -> exists m, body m c l1 x1 = Some q.
Proof. intros P. induction P as [l x|l x l1 x1 l2 x2 P IH E]; intros n q B; [eauto|]. destruct (IH n q B) as (m & B2). destruct m; [discriminate|]. cbn [body] in B2. rewrite E in B2. eauto. Qed.
Lemma body_alone c s r s' : alone c s r s' -> forall n q, body n c RStart s = Some q -> q = s'.
Proof. intros (l & P & R) n q B. destruct (body_on _ _ _ _ _ P n q B) as (m & B2). destruct m; [discriminate|]. cbn [body] in B2. rewrite R in B2. congruence. Qed.
Definition acts (s : rsh) (l : list act) : rsh := fold_left do_act l s.
Lemma body_todo c l : forall s, body (S (length l)) c (RTodo l) s = Some (acts s l).
Proof.
  induction l as [|a l IH]; intros s; [destruct c; reflexivity|]. cbn [length]. 
  transitivity (body (S (length l)) c (RTodo l) (do_act s a)); [destruct c; reflexivity|]. apply IH.
Qed.
Lemma acts_app s a b : acts s (a ++ b) = acts (acts s a) b.
Proof. apply fold_left_app. Qed.
Lemma acts_cells ops : forall w p x y o, acts (Rsh (Renderer w p x y) o) (cells_acts ops) = Rsh (Renderer (fst (apply_ops w ops)) p x y) (o ++ snd (apply_ops w ops)).
Proof.
  induction ops as [|q ops IH]; intros w p x y o; [cbn; rewrite app_nil_r; reflexivity|].
  change (cells_acts (q :: ops)) with ([AMove (ox q) (oy q); ACell (ocell q)] ++ cells_acts ops). rewrite acts_app.
  cbn [apply_ops]. unfold w_cell_at. unfold acts at 2. cbn [fold_left do_act rr rw prev rwidth rheight rout].
  destruct (w_move w (ox q) (oy q)) as [w1 o1]. cbn [rr rw prev rwidth rheight rout]. destruct (w_cell w1 (ocell q)) as [w2 o2].
  rewrite IH. destruct (apply_ops w2 ops) as [w3 o3]. cbn [fst snd]. rewrite <- !app_assoc. reflexivity.
Qed.
Lemma acts_full r o b : acts (Rsh r o) (full_acts b) = Rsh (fst (render_full r b)) (o ++ snd (render_full r b)).
Proof.
  unfold full_acts, render_full. destruct r as [w p x y]. 
  change (AErase :: AMove 0 0 :: cells_acts (diff_full b) ++ [AWid (Z.of_nat (bw b)); AHei (Z.of_nat (bh b)); APrev b])
    with ([AErase; AMove 0 0] ++ cells_acts (diff_full b) ++ [AWid (Z.of_nat (bw b)); AHei (Z.of_nat (bh b)); APrev b]).
  rewrite acts_app. unfold acts at 2. cbn [fold_left do_act rr rw prev rwidth rheight rout].
  destruct (w_clear w) as [w1 o1]. cbn [rr rw prev rwidth rheight rout]. destruct (w_move w1 0 0) as [w2 o2].
  rewrite acts_app, acts_cells. destruct (apply_ops w2 (diff_full b)) as [w3 o3]. cbn [fst snd acts fold_left do_act rr rw prev rwidth rheight rout].
  rewrite <- !app_assoc. reflexivity.
Qed.
Lemma acts_clear r o : acts (Rsh r o) clear_acts = Rsh (fst (r_clear r)) (o ++ snd (r_clear r)).
Proof.
  unfold clear_acts, r_clear. destruct r as [w p x y]. unfold acts. cbn [fold_left do_act rr rw prev rwidth rheight rout].
  destruct (w_clear w) as [w1 o1]. cbn [rr rw prev rwidth rheight rout]. destruct (w_move w1 0 0) as [w2 o2]. cbn [rr rw prev rwidth rheight rout fst snd].
  rewrite <- !app_assoc. reflexivity.
Qed.
Lemma alone_is c s r s' : alone c s r s' -> s' = Rsh (fst (do_call (rr s) c)) (rout s ++ snd (do_call (rr s) c)).
Proof.
  intros A. assert (Q := body_alone _ _ _ _ A). clear A.
  assert (T : forall n l s1, body (n + S (length l)) c RStart s = body (S (length l)) c (RTodo l) s1 -> s' = acts s1 l).
  { intros n l s1 E. symmetry. apply (Q (n + S (length l))%nat). rewrite E. apply body_todo. }
  destruct s as [r0 o]. destruct c as [b| | |w h| |]; cbn [do_call rr rout].
  - unfold render. destruct (negb ((Z.of_nat (bw b) =? rwidth r0) && (Z.of_nat (bh b) =? rheight r0))) eqn:Sz.
    { rewrite (T 1%nat (full_acts b) (Rsh r0 o)); [apply acts_full|]. cbn [Nat.add body r_next rr]. rewrite Sz. reflexivity. }
    destruct (diff (prev r0) b) as [|o1 ops] eqn:D.
    { rewrite (T 2%nat [] (Rsh r0 o)); [cbn; rewrite app_nil_r; reflexivity|]. cbn [Nat.add body r_next rr]. rewrite Sz. cbn [body r_next rr]. rewrite D. reflexivity. }
    cbv zeta. destruct (should_full_redraw _ _) eqn:Sh.
    { rewrite (T 3%nat (full_acts b) (Rsh r0 o)); [apply acts_full|]. cbn [Nat.add body r_next rr]. rewrite Sz. cbn [body r_next rr]. rewrite D. cbn [body r_next rr]. cbv zeta. rewrite Sh. reflexivity. }
    rewrite (T 3%nat (cells_acts (remove_redundant (o1 :: ops) (wstyle (rw r0))) ++ [APrev b]) (Rsh r0 o)).
    + rewrite acts_app. destruct r0 as [w p x y]. rewrite acts_cells. cbn [rw]. destruct (apply_ops w _) as [w1 o2]. cbn. reflexivity.
    + cbn [Nat.add body r_next rr]. rewrite Sz. cbn [body r_next rr]. rewrite D. cbn [body r_next rr]. cbv zeta. rewrite Sh. reflexivity.
  - rewrite (T 1%nat [] (Rsh r0 o) eq_refl). cbn. rewrite app_nil_r. reflexivity.
  - rewrite (T 1%nat clear_acts (Rsh r0 o) eq_refl). apply acts_clear.
  - rewrite (T 1%nat (AWid w :: AHei h :: APrev (new_buffer w h) :: clear_acts) (Rsh r0 o) eq_refl).
    change (AWid w :: AHei h :: APrev (new_buffer w h) :: clear_acts) with ([AWid w; AHei h; APrev (new_buffer w h)] ++ clear_acts).
    rewrite acts_app. cbn [acts fold_left do_act rr rout rw prev rwidth rheight]. rewrite acts_clear. reflexivity.
  - rewrite (T 1%nat [AHide] (Rsh r0 o) eq_refl). reflexivity.
  - rewrite (T 1%nat [AShow] (Rsh r0 o) eq_refl). reflexivity.
Qed.
Lemma run_is s cs s' : one_by_one s cs s' -> rr s' = fst (do_calls (rr s) (map fst cs)) /\ rout s' = rout s ++ snd (do_calls (rr s) (map fst cs)).
Proof.
  intros O. induction O as [x|x cs x1 c r x2 O IH A]; [cbn; rewrite app_nil_r; auto|]. destruct IH as [I1 I2]. apply alone_is in A. subst x2.
  rewrite map_app, do_calls_app'. cbn [map fst do_calls rr rout]. rewrite <- I1. destruct (do_call (rr x1) c) as [r1 o1]. cbn [fst snd]. rewrite I2, app_nil_r, app_assoc. split; reflexivity.
Qed.

(* ---------- C351 ---------- *)

(** However the calls of several goroutines interleave, when all have returned there is an order of the calls, keeping each goroutine's
    own, such that the terminal got exactly what the calls made in that order write, and so shows the frame rendered last in it. *)
Theorem C351_frames_are_whole : forall w h ps sched, let s := r_exec sched w h ps in finished s ->
  exists order : list (nat * call),
    (forall i p, nth_error ps i = Some p -> map snd (filter (fun x => Nat.eqb (fst x) i) order) = p) /\ (forall i c, In (i, c) order -> (i < length ps)%nat) /\
    rout (sh s) = snd (do_calls (new_renderer w h) (map snd order)) /\
    (forall cw W H bc, 1 <= W -> 1 <= H -> Forall (Forall (call_ok cw W H)) ps ->
     let t := feeds cw (blank_term W H bc) (rout (sh s)) in
     forall x y, 0 <= x < W -> 0 <= y < H -> tch (grid t x y) = char (expected (map snd order) x y)).
Proof.
  intros w h ps sched s F.
  destruct (lock_serialises _ _ _ _ unit Empty_set r_lock r_first r_next (fun o _ => match o with end) ltac:(intros c l x l' x' L E; discriminate) (Rsh (new_renderer w h) []) tt (map (map Do) ps) sched) as (order & base & O & Dn & Pr & Re & Le & Id).
  change (exec _ _ _ _ _ _) with s in Dn, Pr, Re, Le. rewrite !map_length in Le, Id. apply run_is in O as [_ O]. cbn [rout rr app] in O.
  assert (FI : forall th, In th (ths s) -> st th = Idle /\ todo th = []) by (intros th Hth; unfold finished in F; rewrite Forall_forall in F; auto).
  assert (B : sh s = base) by (apply Re; apply Forall_forall; intros th Hth; unfold MxModel.holds; now rewrite (proj1 (FI th Hth))).
  set (o' := map (fun x => (fst x, fst (snd x))) order).
  assert (O1 : map snd o' = map fst (map snd order)) by (unfold o'; rewrite !map_map; reflexivity).
  assert (O2 : forall i p, nth_error ps i = Some p -> map snd (filter (fun x => Nat.eqb (fst x) i) o') = p).
  { intros i p E. destruct (nth_error (ths s) i) as [th|] eqn:Et; [|apply nth_error_None in Et; assert (nth_error ps i <> None) by congruence; apply nth_error_Some in H; lia].
    specialize (Dn i th Et). specialize (Pr i th (map Do p) Et ltac:(rewrite !nth_error_map, E; reflexivity)). destruct (FI th (nth_error_In _ _ Et)) as [F1 F2]. unfold returned in Dn. unfold in_progress in Pr. rewrite F1 in Dn, Pr. rewrite F2 in Pr. cbn in Pr. rewrite !app_nil_r in *.
    assert (C1 : forall l : list call, calls_of call Empty_set (map Do l) = l) by (induction l as [|y l IHl]; cbn; [reflexivity|]; f_equal; exact IHl). rewrite C1 in Pr. rewrite Pr, <- Dn. unfold of_thread, o'. clear.
    induction order as [|[j [c u]] o IH]; [reflexivity|]. cbn [map filter fst snd]. destruct (Nat.eqb j i); cbn [map fst snd]; [f_equal|]; exact IH. }
  assert (O3 : forall i c, In (i, c) o' -> (i < length ps)%nat).
  { intros i c I. unfold o' in I. apply in_map_iff in I as (x & E & I). injection E as <- _. rewrite Forall_forall in Id. exact (Id x I). }
  assert (O4 : rout (sh s) = snd (do_calls (new_renderer w h) (map snd o'))) by (rewrite B, O, O1; reflexivity).
  clearbody o'. exists o'. split; [exact O2|]. split; [exact O3|]. split; [exact O4|].
  intros cw W H bc HW HH Ok t x y Hx Hy. unfold t. rewrite O4. apply C03_screen_shows_last_frame; try assumption.
  apply Forall_forall. intros c Hc. apply in_map_iff in Hc as ([i c0] & E & Hin). cbn [snd] in E. subst c0.
  assert (Li := O3 i c Hin). destruct (nth_error ps i) as [p|] eqn:Ep; [|apply nth_error_None in Ep; lia].
  rewrite Forall_forall in Ok. assert (Okp := Ok p (nth_error_In _ _ Ep)). rewrite Forall_forall in Okp. apply Okp. rewrite <- (O2 i p Ep).
  apply in_map_iff. exists (i, c). split; [reflexivity|]. apply filter_In. split; [exact Hin|]. cbn [fst]. apply Nat.eqb_refl.
Qed.
Theorem C351_no_deadlock : forall w h ps sched, let s := r_exec sched w h ps in ~ finished s -> exists i, step r_lock r_first r_next (fun (o : Empty_set) (_ : unit) => match o with end) i s <> None.
Proof. intros w h ps sched s N. unfold s, r_exec in *. apply lock_no_deadlock. exact N. Qed.
Example C351_ex : let ps := [[Render ex_b1; Render ex_b2]; [Clear; Resize 4 2; HideCursor]] in
  let s := r_exec (repeat 0%nat 3 ++ repeat 1%nat 3 ++ repeat 0%nat 90 ++ repeat 1%nat 60) 4 2 ps in
  finished s /\ rout (sh s) = snd (do_calls (new_renderer 4 2) [Render ex_b1; Render ex_b2; Clear; Resize 4 2; HideCursor]).
Proof. vm_compute. split; [repeat (apply Forall_cons; [split; reflexivity|]); apply Forall_nil|reflexivity]. Qed.

(* ---------- C352 ---------- *)

(** C352 is false: another goroutine draws in the buffer being rendered, after it was written and before it was copied. The
    next Render of it, with nobody drawing, writes nothing, and the screen never shows the change. *)
Theorem C352_concurrent_update_refuted : exists b d, let m0 := memory (fst (prun (start 4 1) [NewBuf 4 1; Draw 0 (DString 0 0 [(97, 1)] style0)])) in
  let r0 := rend (fst (prun (start 4 1) [NewBuf 4 1])) in
  b = fst (nth 0 (bufs (fst (prun (start 4 1) [NewBuf 4 1]))) (HBuf 0 0 [], false)) /\
  let '(m1, r1, out1) := race_render m0 r0 b b [d] in
  let '(m2, r2, out2) := p_render m1 r1 b in
  char (get (deref m2 b) 1 0) = 98 /\ out2 = [] /\
  tch (grid (feeds (fun _ => 1) (blank_term 4 1 true) (out1 ++ out2)) 1 0) = 32.
Proof.
  exists (HBuf 4 1 [1%nat]), (DSet 1 0 (Cell 98 style0 1)). vm_compute. repeat split.
Qed.
Lemma draws_keep b' ds : forall m, valid m b' -> keeps (rows b') m (fold_left (fun m d => h_draw m b' d) ds m).
Proof.
  induction ds as [|d ds IH]; intros m V; [apply keeps_refl|]. cbn [fold_left]. destruct (draw_ok m b' d V) as [K _].
  eapply keeps_trans; [exact K|]. apply IH. exact (keeps_valid _ _ _ _ K V).
Qed.
(** Drawing in another buffer meanwhile disturbs nothing: the same is written, the same frame remembered. *)
Theorem C352_other_buffer_partial : forall m r b b' ds, valid m (hprev r) -> valid m b -> valid m b' -> apart (hprev r) b' -> apart b b' ->
  let '(m1, r1, out1) := race_render m r b b' ds in let '(m2, r2, out2) := p_render m r b in
  out1 = out2 /\ pw r1 = pw r2 /\ pwid r1 = pwid r2 /\ phei r1 = phei r2 /\ deref m1 (hprev r1) = deref m2 (hprev r2) /\ deref m1 b = deref m b.
Proof.
  intros m r b b' ds Vp Vb Vb' Ap Ab. pose proof (draws_keep b' ds m Vb') as K.
  assert (Vb2 := keeps_valid _ _ _ _ K Vb). assert (Vp2 := keeps_valid _ _ _ _ K Vp).
  assert (Db : deref (fold_left (fun m d => h_draw m b' d) ds m) b = deref m b) by (eapply keeps_deref; [exact K|exact Vb|exact Ab]).
  assert (Dp : deref (fold_left (fun m d => h_draw m b' d) ds m) (hprev r) = deref m (hprev r)) by (eapply keeps_deref; [exact K|exact Vp|exact Ap]).
  assert (Cl : forall m1 k1 m2 k2, h_clone (fold_left (fun m d => h_draw m b' d) ds m) b = (m1, k1) -> h_clone m b = (m2, k2) -> deref m1 k1 = deref m2 k2 /\ deref m1 b = deref m b).
  { intros m1 k1 m2 k2 E1 E2. destruct (clone_ok _ _ _ _ Vb2 E1) as (K1 & V1 & D1 & _). destruct (clone_ok _ _ _ _ Vb E2) as (_ & _ & D2 & _).
    split; [congruence|]. rewrite <- Db. eapply keeps_deref; [exact K1|exact Vb2|intros a _ []]. }
  assert (Fu : let '(m1, r1, out1) := race_full m r b b' ds in let '(m2, r2, out2) := p_full m r b in
    out1 = out2 /\ pw r1 = pw r2 /\ pwid r1 = pwid r2 /\ phei r1 = phei r2 /\ deref m1 (hprev r1) = deref m2 (hprev r2) /\ deref m1 b = deref m b).
  { unfold race_full, p_full. destruct (w_clear (pw r)) as [w1 o1]. destruct (w_move w1 0 0) as [w2 o2]. destruct (apply_ops w2 (diff_full (deref m b))) as [w3 o3].
    destruct (h_clone (fold_left _ ds m) b) as [m1 k1] eqn:E1. destruct (h_clone m b) as [m2 k2] eqn:E2. destruct (Cl _ _ _ _ eq_refl eq_refl) as [C1 C2].
    cbn [pw pwid phei hprev]. auto 10. }
  unfold race_render, p_render. destruct (negb _); [exact Fu|].
  destruct (diff (deref m (hprev r)) (deref m b)) as [|o0 ops0]; [split; [reflexivity|]; auto 10|].
  cbv zeta. destruct (should_full_redraw _ _); [exact Fu|].
  destruct (apply_ops (pw r) _) as [w1 o1]. destruct (h_clone (fold_left _ ds m) b) as [m1 k1] eqn:E1. destruct (h_clone m b) as [m2 k2] eqn:E2. destruct (Cl _ _ _ _ eq_refl eq_refl) as [C1 C2].
  cbn [pw pwid phei hprev]. auto 10.
Qed.
(** Two buffers made one after the other and the frame remembered are such. *)
Example C352_hyps : let s := fst (prun (start 4 1) [NewBuf 4 1; NewBuf 4 1]) in let b := HBuf 4 1 [1%nat] in let b' := HBuf 4 1 [2%nat] in
  map fst (bufs s) = [b; b'] /\ valid (memory s) (hprev (rend s)) /\ valid (memory s) b /\ valid (memory s) b' /\ apart (hprev (rend s)) b' /\ apart b b'.
Proof.
  cbv zeta. split; [reflexivity|].
  assert (V : forall a, (a < 3)%nat -> valid (memory (fst (prun (start 4 1) [NewBuf 4 1; NewBuf 4 1]))) (HBuf 4 1 [a])).
  { intros a Ha. split; [reflexivity|]. split; [constructor; [intros []|constructor]|]. constructor; [|constructor]. destruct a as [|[|[|a]]]; [split; [vm_compute; lia|reflexivity] ..|lia]. }
  split; [exact (V 0%nat ltac:(lia))|]. split; [exact (V 1%nat ltac:(lia))|]. split; [exact (V 2%nat ltac:(lia))|]. clear V.
  split; intros a Ha Hb; vm_compute in Ha, Hb; destruct Ha as [<-|[]], Hb as [Hb|[]]; discriminate.
Qed.

Print Assumptions C351_frames_are_whole. Print Assumptions C351_no_deadlock. Print Assumptions C352_concurrent_update_refuted. Print Assumptions C352_other_buffer_partial.
