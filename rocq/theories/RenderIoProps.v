(** The renderer over an output that can fail. *)
From Verif Require Import Prelude TermEmu RenderModel RenderSpec RenderEmu RenderProofs RenderProps RenderIoModel.

(** What an operation that would write [out] does to the buffered output. *)
Definition wrote (b : bufio) (out : list Z) (ok : bool) (b' : bufio) : Prop :=
  if bad b then b' = b /\ (ok = true -> out = [])
  else (faults b = [] -> ok = true /\ faults b' = []) /\
       if ok then bad b' = false /\ sent b' ++ pend b' = sent b ++ pend b ++ out
       else bad b' = true /\ exists rest, sent b' ++ rest = sent b ++ pend b ++ out.
Lemma wrote_nil b : wrote b [] true b.
Proof. unfold wrote. destruct (bad b) eqn:B; [auto|]. split; [auto|]. split; [reflexivity|]. now rewrite app_nil_r. Qed.
Lemma wrote_app b o1 b1 o2 ok b2 : wrote b o1 true b1 -> wrote b1 o2 ok b2 -> wrote b (o1 ++ o2) ok b2.
Proof.
  unfold wrote. destruct (bad b) eqn:B.
  - intros [-> E1] W2. rewrite B in W2. destruct W2 as [-> E2]. split; [reflexivity|]. intros K. now rewrite E1, E2.
  - intros (F1 & B1 & E1) W2. rewrite B1 in W2. destruct W2 as [F2 W2]. split.
    + intros F. destruct (F1 F) as [_ F']. exact (F2 F').
    + assert (X : sent b ++ pend b ++ o1 ++ o2 = sent b1 ++ pend b1 ++ o2) by (rewrite (app_assoc (sent b1)), E1, <- !app_assoc; reflexivity).
      destruct ok; rewrite X; exact W2.
Qed.
Lemma wrote_stop b o1 b1 o2 : wrote b o1 false b1 -> wrote b (o1 ++ o2) false b1.
Proof.
  unfold wrote. destruct (bad b) eqn:B; [intros [-> _]; split; [reflexivity|discriminate]|]. intros (F & B1 & rest & E). split; [exact F|]. split; [exact B1|].
  exists (rest ++ o2). rewrite app_assoc, E. now rewrite <- !app_assoc.
Qed.
Lemma flush_wrote b : wrote b [] (fst (b_flush b)) (snd (b_flush b)) /\ (fst (b_flush b) = true -> pend (snd (b_flush b)) = []).
Proof.
  unfold b_flush. destruct (bad b) eqn:B; [split; [unfold wrote; rewrite B; auto|discriminate]|].
  destruct (pend b) as [|c p] eqn:P; [split; [apply wrote_nil|cbn; auto]|]. destruct (faults b) as [|n fs] eqn:F.
  - split; [|reflexivity]. unfold wrote. rewrite B, F, P. cbn [fst snd faults bad sent pend]. rewrite !app_nil_r. auto.
  - destruct (length (c :: p) <=? n)%nat.
    + split; [|reflexivity]. unfold wrote. rewrite B, F, P. cbn [fst snd faults bad sent pend]. rewrite !app_nil_r. split; [discriminate|auto].
    + split; [|discriminate]. unfold wrote. rewrite B, F, P. cbn [fst snd faults bad sent pend]. split; [discriminate|]. split; [reflexivity|]. exists (skipn n (c :: p)). rewrite <- app_assoc, firstn_skipn. now rewrite app_nil_r.
Qed.
Lemma put_wrote c b : wrote b [c] (fst (b_put c b)) (snd (b_put c b)).
Proof.
  unfold b_put. destruct (bad b) eqn:B; [unfold wrote; rewrite B; split; [reflexivity|discriminate]|]. set (b0 := Bw (pend b) false (sent b) (faults b) (tl (plan b))).
  assert (W0 : wrote b [] true b0) by (unfold wrote; rewrite B; cbn; rewrite app_nil_r; auto).
  assert (W1 : exists ok b1, (if hd false (plan b) then b_flush b0 else (true, b0)) = (ok, b1) /\ wrote b [] ok b1).
  { destruct (hd false (plan b)); [|exists true, b0; auto]. destruct (flush_wrote b0) as [W1 _]. destruct (b_flush b0) as [ok b1]. exists ok, b1. split; [reflexivity|]. exact (wrote_app _ _ _ _ _ _ W0 W1). }
  destruct W1 as (ok & b1 & E & W1).
  cbv zeta. rewrite E. destruct ok; cbn [fst snd]; [|exact (wrote_stop b [] b1 [c] W1)].
  revert W1. unfold wrote. rewrite B. cbn [bad sent pend faults]. intros (F & B1 & S1). split; [exact F|]. split; [exact B1|]. rewrite app_nil_r in S1. rewrite !app_assoc, S1. reflexivity.
Qed.
Lemma puts_wrote s : forall b, wrote b s (fst (b_puts s b)) (snd (b_puts s b)).
Proof.
  induction s as [|c s IH]; intros b; [apply wrote_nil|]. cbn [b_puts]. assert (W1 := put_wrote c b). destruct (b_put c b) as [[|] b1]; cbn [fst snd] in *.
  - exact (wrote_app b [c] b1 s _ _ W1 (IH b1)).
  - exact (wrote_stop b [c] b1 s W1).
Qed.

(** An operation of the writer against the one that cannot fail. *)
Definition like (b : bufio) (p : writer * list Z) (q : bool * (writer * bufio)) : Prop := wrote b (snd p) (fst q) (snd (snd q)) /\ (fst q = true -> fst (snd q) = fst p).
Lemma move_like w b x y : like b (w_move w x y) (x_move w b x y).
Proof.
  unfold w_move, x_move, like. destruct ((x =? wx w) && (y =? wy w)); [split; [apply wrote_nil|auto]|].
  assert (W1 := puts_wrote (move_cursor_code x y) b). destruct (b_puts _ b) as [[|] b1]; cbn [fst snd] in *; split; auto. discriminate.
Qed.
Lemma cell_like w b c : like b (w_cell w c) (x_cell w b c).
Proof.
  unfold w_cell, x_cell, like. destruct (style_eqb (cstyle c) (wstyle w)) eqn:E.
  - cbn [negb]. assert (W1 := puts_wrote [char c] b). destruct (b_puts _ b) as [[|] b1]; cbn [fst snd app] in *; split; auto. discriminate.
  - assert (W1 := puts_wrote (to_ansi (cstyle c)) b). destruct (b_puts _ b) as [[|] b1]; cbn [fst snd negb] in *.
    + assert (W2 := puts_wrote [char c] b1). destruct (b_puts _ b1) as [[|] b2]; cbn [fst snd] in *; (split; [eapply wrote_app; eauto|]); auto. discriminate.
    + split; [apply wrote_stop; exact W1|discriminate].
Qed.
Lemma cell_at_like w b o : like b (w_cell_at w o) (x_cell_at w b o).
Proof.
  unfold w_cell_at, x_cell_at. destruct (move_like w b (ox o) (oy o)) as [W1 E1]. destruct (w_move w (ox o) (oy o)) as [w1 o1], (x_move w b (ox o) (oy o)) as [[|] [w1' b1]]; cbn [fst snd] in *.
  - rewrite (E1 eq_refl). destruct (cell_like w1 b1 (ocell o)) as [W2 E2]. destruct (w_cell w1 (ocell o)) as [w2 o2], (x_cell w1 b1 (ocell o)) as [ok [w2' b2]]. split; cbn [fst snd] in *; [eapply wrote_app; eauto|exact E2].
  - destruct (w_cell w1 (ocell o)) as [w2 o2]. split; cbn [fst snd]; [apply wrote_stop; exact W1|discriminate].
Qed.
Lemma ops_like ops : forall w b, like b (apply_ops w ops) (x_ops w b ops).
Proof.
  induction ops as [|o ops IH]; intros w b; [split; [apply wrote_nil|auto]|]. cbn [apply_ops x_ops]. destruct (cell_at_like w b o) as [W1 E1].
  destruct (w_cell_at w o) as [w1 o1], (x_cell_at w b o) as [[|] [w1' b1]]; cbn [fst snd] in *.
  - rewrite (E1 eq_refl). destruct (IH w1 b1) as [W2 E2]. destruct (apply_ops w1 ops) as [w2 o2], (x_ops w1 b1 ops) as [ok [w2' b2]]. split; cbn [fst snd] in *; [eapply wrote_app; eauto|exact E2].
  - destruct (apply_ops w1 ops) as [w2 o2]. split; cbn [fst snd]; [apply wrote_stop; exact W1|discriminate].
Qed.
Lemma home_like w b : like b (let '(w1, o1) := w_clear w in let '(w2, o2) := w_move w1 0 0 in (w2, o1 ++ o2)) (x_home w b).
Proof.
  unfold w_clear, x_home. assert (W1 := puts_wrote clear_screen_code b). destruct (b_puts _ b) as [[|] b1]; cbn [fst snd] in W1.
  - destruct (move_like w b1 0 0) as [W2 E2]. destruct (w_move w 0 0) as [w2 o2], (x_move w b1 0 0) as [ok [w2' b2]]. split; cbn [fst snd] in *; [eapply wrote_app; eauto|exact E2].
  - destruct (w_move w 0 0) as [w2 o2]. split; cbn [fst snd]; [apply wrote_stop; exact W1|discriminate].
Qed.

(** A call of the renderer: nothing is left in the buffer when it returns nil. *)
Definition likec (b : bufio) (p : renderer * list Z) (q : bool * (renderer * bufio)) : Prop :=
  wrote b (snd p) (fst q) (snd (snd q)) /\ (fst q = true -> fst (snd q) = fst p) /\ (fst q = true -> pend b = [] -> pend (snd (snd q)) = []).
Lemma finish_like r good b p q : like b p q -> likec b (good (with_writer r (fst p)), snd p) (finish r good q).
Proof.
  intros [W1 E1]. unfold finish, likec. destruct q as [[|] [w b1]]; cbn [fst snd] in *.
  - destruct (flush_wrote b1) as [W2 P]. destruct (b_flush b1) as [ok b2]. cbn [fst snd] in *. assert (W3 := wrote_app _ _ _ _ _ _ W1 W2). rewrite app_nil_r in W3.
    destruct ok; cbn [fst snd]; (split; [exact W3|]); [|split; discriminate]. rewrite (E1 eq_refl). auto.
  - split; [exact W1|]. split; discriminate.
Qed.
Lemma full_like r b f : likec b (render_full r f) (x_full r b f).
Proof.
  unfold render_full, x_full. destruct (home_like (rw r) b) as [W1 E1].
  set (q := let '(ok, (w, b)) := x_home (rw r) b in if ok then x_ops w b (diff_full f) else (false, (w, b))).
  assert (L : like b (let '(w1, o1) := w_clear (rw r) in let '(w2, o2) := w_move w1 0 0 in let '(w3, o3) := apply_ops w2 (diff_full f) in (w3, o1 ++ o2 ++ o3)) q).
  { subst q. destruct (w_clear (rw r)) as [w1 o1]. destruct (w_move w1 0 0) as [w2 o2]. destruct (x_home (rw r) b) as [[|] [wx b1]]; cbn [fst snd] in *.
    - rewrite (E1 eq_refl). destruct (ops_like (diff_full f) w2 b1) as [W2 E2]. destruct (apply_ops w2 (diff_full f)) as [w3 o3], (x_ops w2 b1 (diff_full f)) as [ok [w3' b2]]. split; cbn [fst snd] in *; [rewrite app_assoc; eapply wrote_app; eauto|exact E2].
    - destruct (apply_ops w2 (diff_full f)) as [w3 o3]. split; cbn [fst snd]; [rewrite app_assoc; apply wrote_stop; exact W1|discriminate]. }
  apply (finish_like r (fun r => Renderer (rw r) f (Z.of_nat (bw f)) (Z.of_nat (bh f)))) in L.
  destruct (w_clear (rw r)) as [w1 o1]. destruct (w_move w1 0 0) as [w2 o2]. destruct (apply_ops w2 (diff_full f)) as [w3 o3]. exact L.
Qed.
Lemma clear_like r b : likec b (r_clear r) (x_clear r b).
Proof.
  unfold r_clear, x_clear. assert (L := home_like (rw r) b). apply (finish_like r (fun r => Renderer (rw r) (clear_buf (prev r)) (rwidth r) (rheight r))) in L.
  destruct (w_clear (rw r)) as [w1 o1]. destruct (w_move w1 0 0) as [w2 o2]. exact L.
Qed.
Lemma call_like r b c : likec b (do_call r c) (x_call r b c).
Proof.
  destruct c as [f| | |w h| |]; cbn [do_call x_call].
  - unfold render, x_render. destruct (negb _); [apply full_like|]. destruct (diff (prev r) f) as [|o ops] eqn:D; [split; [apply wrote_nil|cbn; auto]|].
    destruct (should_full_redraw _ _); [apply full_like|]. assert (L := ops_like (remove_redundant (o :: ops) (wstyle (rw r))) (rw r) b).
    apply (finish_like r (fun r => Renderer (rw r) f (rwidth r) (rheight r))) in L. destruct (apply_ops (rw r) _) as [w1 o1]. exact L.
  - split; [apply wrote_nil|cbn; auto].
  - apply clear_like.
  - apply clear_like.
  - assert (W1 := puts_wrote cursor_hide_code b). set (q := let (ok, b) := b_puts cursor_hide_code b in (ok, (rw r, b))). assert (L : like b (rw r, cursor_hide_code) q) by (subst q; destruct (b_puts _ b) as [ok b1]; split; auto).
    apply (finish_like r (fun r => r)) in L. destruct r. exact L.
  - assert (W1 := puts_wrote cursor_show_code b). set (q := let (ok, b) := b_puts cursor_show_code b in (ok, (rw r, b))). assert (L : like b (rw r, cursor_show_code) q) by (subst q; destruct (b_puts _ b) as [ok b1]; split; auto).
    apply (finish_like r (fun r => r)) in L. destruct r. exact L.
Qed.
Lemma calls_bad cs : forall r b, bad b = true -> snd (snd (x_calls r b cs)) = b.
Proof.
  induction cs as [|c cs IH]; intros r b B; [reflexivity|]. cbn [x_calls]. destruct (call_like r b c) as (W1 & _ & _). destruct (x_call r b c) as [ok [r1 b1]]. cbn [fst snd] in W1. unfold wrote in W1. rewrite B in W1. destruct W1 as [-> _].
  specialize (IH r1 b B). destruct (x_calls r1 b cs) as [oks q]. exact IH.
Qed.
Lemma calls_like cs : forall r b, bad b = false -> pend b = [] -> let '(oks, (r', b')) := x_calls r b cs in
  (forallb (fun x => x) oks = true -> r' = fst (do_calls r cs) /\ pend b' = [] /\ sent b' = sent b ++ snd (do_calls r cs)) /\
  (exists rest, sent b' ++ rest = sent b ++ snd (do_calls r cs)) /\ (faults b = [] -> forallb (fun x => x) oks = true).
Proof.
  induction cs as [|c cs IH]; intros r b B P; cbn [x_calls do_calls].
  - cbn [fst snd forallb]. split; [intros _; rewrite app_nil_r; auto|]. split; [exists []; reflexivity|auto].
  - destruct (call_like r b c) as (W1 & E1 & P1). assert (CB := calls_bad cs). destruct (do_call r c) as [rp o1]. destruct (x_call r b c) as [ok [r1 b1]]. cbn [fst snd] in *. unfold wrote in W1. rewrite B, P in W1. cbn [app] in W1. destruct W1 as [F1 W1].
    destruct ok; [|].
    + specialize (P1 eq_refl P). destruct W1 as [B1 S1]. rewrite P1, app_nil_r in S1. rewrite (E1 eq_refl) in *. specialize (IH rp b1 B1 P1). destruct (x_calls rp b1 cs) as [oks [r' b']], (do_calls rp cs) as [r2 o2]. cbn [fst snd forallb andb] in *.
      destruct IH as (I1 & I2 & I3). rewrite S1, <- app_assoc in I1, I2. split; [exact I1|]. split; [exact I2|]. intros F. apply I3. apply F1. exact F.
    + destruct W1 as (B1 & rest & S1). specialize (CB r1 b1 B1). destruct (x_calls r1 b1 cs) as [oks [r' b']], (do_calls rp cs) as [r2 o2]. cbn [fst snd forallb andb] in *. subst b'. split; [discriminate|].
      split; [exists (rest ++ o2); rewrite app_assoc, S1, <- app_assoc; reflexivity|]. intros F. destruct (F1 F). discriminate.
Qed.

(* ---------- C330: what the errors say ---------- *)

(** However the output fails and whenever the buffer is handed over: if every call returned nil, the terminal received everything and
    its screen shows the last frame; the terminal never receives anything but a beginning of what it would have received without
    failures; and if the output does not fail, no call returns an error. *)
Theorem C330_nil_means_shown : forall cw W H bc w h cs fs ps,
  1 <= W -> 1 <= H -> Forall (call_ok cw W H) cs -> let (oks, b) := run_io w h fs ps cs in
  Forall (fun ok => ok = true) oks -> pend b = [] /\
  let t := feeds cw (blank_term W H bc) (sent b) in forall x y, 0 <= x < W -> 0 <= y < H -> tch (grid t x y) = char (expected cs x y).
Proof.
  intros cw W H bc w h cs fs ps HW HH OK. unfold run_io. assert (L := calls_like cs (new_renderer w h) (new_bufio fs ps) eq_refl eq_refl). destruct (x_calls _ _ cs) as [oks [r b]]. destruct L as [L _].
  intros A. destruct L as (_ & P & S); [apply forallb_forall; intros x Hx; rewrite Forall_forall in A; now apply A|]. split; [exact P|]. rewrite S. cbn [new_bufio sent app]. apply C03_screen_shows_last_frame; auto.
Qed.
Theorem C330_only_a_beginning : forall w h cs fs ps, let (oks, b) := run_io w h fs ps cs in
  length oks = length cs /\ exists rest, sent b ++ rest = snd (do_calls (new_renderer w h) cs).
Proof.
  intros w h cs fs ps. unfold run_io. assert (L := calls_like cs (new_renderer w h) (new_bufio fs ps) eq_refl eq_refl).
  assert (N : forall cs r b, length (fst (x_calls r b cs)) = length cs) by (clear; induction cs as [|c cs IH]; intros r b; [reflexivity|]; cbn [x_calls]; destruct (x_call r b c) as [ok [r1 b1]]; specialize (IH r1 b1); destruct (x_calls r1 b1 cs) as [oks q]; cbn [fst length] in *; lia).
  specialize (N cs (new_renderer w h) (new_bufio fs ps)). destruct (x_calls _ _ cs) as [oks [r b]]. split; [exact N|]. apply L.
Qed.
Theorem C330_no_false_errors : forall w h cs ps, let (oks, b) := run_io w h [] ps cs in Forall (fun ok => ok = true) oks /\ sent b = snd (do_calls (new_renderer w h) cs).
Proof.
  intros w h cs ps. unfold run_io. assert (L := calls_like cs (new_renderer w h) (new_bufio [] ps) eq_refl eq_refl). destruct (x_calls _ _ cs) as [oks [r b]]. destruct L as (L1 & _ & L3).
  specialize (L3 eq_refl). split; [apply Forall_forall; intros x Hx; rewrite forallb_forall in L3; auto|]. apply L1. exact L3.
Qed.
Lemma calls_app cs1 : forall r b cs2, x_calls r b (cs1 ++ cs2) = let '(k1, (r1, b1)) := x_calls r b cs1 in let (k2, q) := x_calls r1 b1 cs2 in (k1 ++ k2, q).
Proof.
  induction cs1 as [|c cs1 IH]; intros r b cs2; cbn [app x_calls]; [destruct (x_calls r b cs2); reflexivity|]. destruct (x_call r b c) as [ok [r1 b1]]. rewrite IH.
  destruct (x_calls r1 b1 cs1) as [k1 [r2 b2]]. destruct (x_calls r2 b2 cs2) as [k2 q]. reflexivity.
Qed.
Lemma false_bad cs : forall r b, In false (fst (x_calls r b cs)) -> bad (snd (snd (x_calls r b cs))) = true.
Proof.
  induction cs as [|c cs IH]; intros r b I; [destruct I|]. cbn [x_calls] in *. destruct (call_like r b c) as (W1 & _ & _). assert (CB := calls_bad cs). destruct (x_call r b c) as [ok [r1 b1]]. cbn [fst snd] in *. unfold wrote in W1.
  destruct (bad b) eqn:B; [destruct W1 as [-> _]; specialize (CB r1 b B); destruct (x_calls r1 b cs) as [k q]; cbn [fst snd] in *; congruence|]. destruct W1 as [_ W1].
  destruct ok; [|specialize (CB r1 b1 (proj1 W1)); destruct (x_calls r1 b1 cs) as [k q]; cbn [fst snd] in *; rewrite CB; apply W1]. specialize (IH r1 b1). destruct (x_calls r1 b1 cs) as [k q]. cbn [fst snd] in *. destruct I as [I|I]; [discriminate|auto].
Qed.
(** After an error nothing more is written, so a broken frame is never continued in the middle of an escape sequence. *)
Theorem C330_silent_after_error : forall w h fs ps cs more, In false (fst (run_io w h fs ps cs)) -> sent (snd (run_io w h fs ps (cs ++ more))) = sent (snd (run_io w h fs ps cs)).
Proof.
  intros w h fs ps cs more. unfold run_io. rewrite calls_app. assert (F := false_bad cs (new_renderer w h) (new_bufio fs ps)). destruct (x_calls _ _ cs) as [k [r b]]. cbn [fst snd] in *. intros I. specialize (F I).
  assert (CB := calls_bad more r b F). destruct (x_calls r b more) as [k2 [r2 b2]]. cbn [fst snd] in *. now subst b2.
Qed.
(** A frame that fails halfway, the output taking four code points before it fails. *)
Definition ex_f := fst (set_string (new_buffer 4 2) 1 0 [(97,1);(98,1)] style0).
Example C330_ex : run_io 4 2 [8%nat] [] [HideCursor; Render ex_f; Render ex_f; RenderNil] = ([true; false; false; true], Bw (skipn 2 (27 :: 91 :: dec 1 ++ 59 :: dec 2 ++ [72] ++ [97; 98])) true (cursor_hide_code ++ [27; 91]) [] []).
Proof. vm_compute. reflexivity. Qed.

(* ---------- C331: a frame that failed can be rendered again (violated) ---------- *)

(** The output fails once and works from then on; rendering again, clearing, even resizing fails for ever and the screen stays blank. *)
Theorem C331_retry_refuted : exists w h cs f, Forall (call_ok (fun _ => 1) 5 3) cs /\ (exists n more, cs = Render f :: repeat (Render f) n ++ more) /\ char (get f 1 0) = 97 /\
  let (oks, b) := run_io w h [0%nat] [] cs in
  faults b = [] /\ Forall (fun ok => ok = false) oks /\ sent b = [].
Proof.
  exists 4, 2, [Render ex_f; Render ex_f; Render ex_f; Clear; Render ex_f; Resize 4 2; Render ex_f; ShowCursor], ex_f. split; [repeat constructor; try (cbn; lia); try (vm_compute; repeat constructor; discriminate || lia); vm_compute; intros; discriminate|].
  split; [exists 2%nat, [Clear; Render ex_f; Resize 4 2; Render ex_f; ShowCursor]; reflexivity|]. split; [reflexivity|]. vm_compute. split; [reflexivity|]. split; [repeat constructor|reflexivity].
Qed.

Print Assumptions C330_nil_means_shown. Print Assumptions C330_only_a_beginning. Print Assumptions C330_no_false_errors. Print Assumptions C330_silent_after_error.
Print Assumptions C331_retry_refuted.
