From Verif Require Import Prelude TermEmu RenderModel RenderSpec RenderProofs RenderProps RpModel RpSpec RpProofs RpSys RpOwn RpFit.

Lemma do_run w h os : snd (prun (start w h) os) = snd (do_calls (new_renderer w h) (as_calls (start w h) os)).
Proof. apply inv_run, inv_start. Qed.
Lemma bufs_len w h os : careful 0 [] os -> length (bufs (fst (prun (start w h) os))) = gets os.
Proof.
  intros C. destruct (start_bufs w h) as (Eb & _). pose proof (own_run os (start w h) [] (own_start w h)) as O. rewrite Eb in O.
  destruct (O C) as [O1 _]. rewrite O1. reflexivity.
Qed.
Lemma owned w h os i : careful 0 [] os -> ~ In (Release i) os -> (i < gets os)%nat ->
  exists w' h', holds (fst (prun (start w h) os)) i = Some (drawing (new_buffer w' h') (drawn i os)).
Proof.
  intros C Hr Hi. destruct (start_bufs w h) as (Eb & _). pose proof (own_run os (start w h) [] (own_start w h)) as O. rewrite Eb in O.
  destruct (O C) as [O1 O2]. destruct (O2 i (fun H => H) Hr) as [_ J]. apply J. rewrite O1. cbn. lia.
Qed.

(** C348. Whatever the pool hands out and whatever the program draws later, in the same buffers or in others, released or
    not, even twice: what is written is what the renderer of RenderModel, which gets frames as values, writes for the
    frames as they were when they were rendered. *)
Theorem C348_frames_as_rendered : forall w h os, snd (prun (start w h) os) = snd (do_calls (new_renderer w h) (as_calls (start w h) os)).
Proof. exact do_run. Qed.
(** Drawing, getting and releasing buffers writes nothing. *)
Theorem C348_only_renderer_writes : forall w h os more,
  Forall (fun o => match o with GetBuffer _ | NewBuf _ _ | Draw _ _ | Release _ | Lose _ => True | _ => False end) more ->
  snd (prun (start w h) (os ++ more)) = snd (prun (start w h) os).
Proof.
  intros w h os more Hm. destruct (prun_app os (start w h) more) as [_ ->]. rewrite <- (app_nil_r (snd (prun (start w h) os))) at 2. f_equal.
  generalize (fst (prun (start w h) os)). induction Hm as [|o more Ho Hm IH]; intros s; [reflexivity|].
  rewrite prun_cons. cbn [snd]. rewrite IH, app_nil_r. clear -Ho.
  destruct o as [taken|w' h'|i d|i|i| |w' h'| | |i]; try contradiction; cbn [pstep]; try reflexivity.
  - assert (N : forall A : Type, forall (x : mem * hbuf) (f : mem -> hbuf -> A), snd (let '(m, b) := x in (f m b, [] : list Z)) = []) by (intros A [m b] f; reflexivity).
    destruct taken as [i|]; [|apply N]. destruct (nth_error (pool s) i); [reflexivity|apply N].
  - destruct (nth_error (bufs s) i) as [[b f]|]; reflexivity.
  - destruct (nth_error (bufs s) i) as [[b [|]]|]; reflexivity.
Qed.
(** In a program that leaves released buffers alone, every buffer not released holds exactly what was drawn in it since
    it was got, blank: neither the other buffers, nor the pool, nor the renderer change it. *)
Theorem C348_own_drawings : forall w h os i, careful 0 [] os -> ~ In (Release i) os -> (i < gets os)%nat ->
  exists w' h', holds (fst (prun (start w h) os)) i = Some (drawing (new_buffer w' h') (drawn i os)).
Proof. exact owned. Qed.
(** And when it is rendered, the terminal shows that. *)
Theorem C348_screen_shows_drawings : forall cw W H bc w h os i, cw 32 = 1 -> 1 <= W -> 1 <= H -> w <= W -> h <= H ->
  Forall (fits cw W H) os -> careful 0 [] (os ++ [Show i]) ->
  let t := feeds cw (blank_term W H bc) (snd (prun (start w h) (os ++ [Show i]))) in
  exists w' h', let B := drawing (new_buffer w' h') (drawn i os) in
  holds (fst (prun (start w h) os)) i = Some B /\
  forall x y, 0 <= x < W -> 0 <= y < H -> tch (grid t x y) = char (get B x y).
Proof.
  intros cw W H bc w h os i Hs HW HH Hw Hh Hf C. cbv zeta.
  assert (C' : careful 0 [] os /\ (i < gets os)%nat /\ ~ In (Release i) os).
  { assert (G : forall os got gone, careful got gone (os ++ [Show i]) -> careful got gone os /\ (i < got + gets os)%nat /\ ~ In (Release i) os /\ ~ In i gone).
    { clear. induction os as [|o os IH]; intros got gone C.
      - cbn in C. cbn. split; [exact Logic.I|]. split; [lia|]. tauto.
      - cbn [app] in C. destruct (careful_cons _ _ _ _ C) as [C1 C2]. destruct (IH _ _ C2) as (A1 & A2 & A3 & A4).
        rewrite gets_cons. split.
        { clear A2 A3. destruct o; cbn [careful gone_after gets filter length] in *; rewrite ?Nat.add_0_r in A1; rewrite ?Nat.add_1_r in A1; tauto. }
        split; [lia|]. split.
        + intros [->|Hin]; [|contradiction]. apply A4. left. reflexivity.
        + intros Hg. apply A4. destruct o; cbn [gone_after]; auto. right. exact Hg. }
    destruct (G os O [] C) as (G1 & G2 & G3 & _). auto. }
  destruct C' as (C1 & Hi & Hr). destruct (owned w h os i C1 Hr Hi) as (w' & h' & E1). exists w', h'. split; [exact E1|].
  intros x y Hx Hy. rewrite do_run.
  assert (Hfit : Forall (call_ok cw W H) (as_calls (start w h) (os ++ [Show i]))).
  { apply fit_frames; try assumption; try lia.
    - exists (new_renderer w h). apply inv_start.
    - apply fit_start; assumption || lia.
    - apply Forall_app. split; [exact Hf|]. constructor; [exact Logic.I|constructor]. }
  rewrite (C03_screen_shows_last_frame cw W H bc w h _ HW HH Hfit x y Hx Hy).
  rewrite as_calls_app. cbn [as_calls as_call]. rewrite E1. unfold expected. rewrite app_nil_r, fold_left_app. reflexivity.
Qed.
(** Buffer() is always blank, whatever was drawn in it before it was released. *)
Theorem C348_buffer_blank : forall w h os taken, let s := fst (prun (start w h) os) in let s' := fst (prun (start w h) (os ++ [GetBuffer taken])) in
  length (bufs s') = S (length (bufs s)) /\ exists w' h', holds s' (length (bufs s)) = Some (new_buffer w' h').
Proof.
  intros w h os taken. cbv zeta. destruct (prun_app os (start w h) [GetBuffer taken]) as [-> _]. rewrite prun_cons. cbn [fst prun].
  destruct (inv_run os (start w h) _ (inv_start w h)) as [_ I]. set (s := fst (prun (start w h) os)) in *. clearbody s.
  pose proof I as (_ & _ & Vb & Vq).
  assert (Last : forall m q b, valid m b -> let s' := St (h_clear m b) (rend s) q (pool_new s) (bufs s ++ [(b, true)]) in
    length (bufs s') = S (length (bufs s)) /\ exists w' h', holds s' (length (bufs s)) = Some (new_buffer w' h')).
  { intros m q b V. cbv zeta. cbn [bufs]. split; [rewrite app_length; cbn; lia|]. destruct (clear_ok m b V) as [_ D].
    eexists _, _. unfold holds. cbn [bufs memory]. rewrite nth_snoc.
    replace (length (bufs s) <? length (bufs s))%nat with false by lia. rewrite Nat.eqb_refl. cbn [option_map fst]. rewrite D. reflexivity. }
  assert (New : let s' := fst (let '(m, b) := alloc (memory s) (fst (pool_new s)) (snd (pool_new s)) in (St (h_clear m b) (rend s) (pool s) (pool_new s) (bufs s ++ [(b, true)]), [] : list Z)) in
    length (bufs s') = S (length (bufs s)) /\ exists w' h', holds s' (length (bufs s)) = Some (new_buffer w' h')).
  { destruct (alloc (memory s) (fst (pool_new s)) (snd (pool_new s))) as [m b] eqn:Ea. destruct (alloc_ok _ _ _ _ _ Ea) as (_ & Vk & _). apply (Last m (pool s) b Vk). }
  cbn [pstep]. destruct taken as [i|]; [|exact New]. destruct (nth_error (pool s) i) as [b|] eqn:Ei; [|exact New].
  apply (Last (memory s) (drop_nth (pool s) i) b). eapply pool_valid; [exact I|]. eapply nth_error_In; exact Ei.
Qed.

Definition sx : style := Style (Some (Color 1 2 3)) None true false false false false false false false.
Definition ex_prog : list pop :=
  [GetBuffer None; GetBuffer None; Draw 0 (DString 0 0 [(97, 1); (98, 1)] style0); Show 0; Draw 1 (DLine 1 [(99, 1)] sx); Release 0;
   GetBuffer (Some 0%nat); Draw 2 (DFill (Cell 120 style0 1)); PResize 4 2; NewBuf 3 1; Draw 3 (DSet 2 0 (Cell 121 sx 1)); Show 2; Lose 0; Draw 2 DClear; PHide; Draw 1 (DSet 9 9 (Cell 97 sx 1))].
Example C348_hyps : careful 0 [] (ex_prog ++ [Show 1]) /\ Forall (fits (fun _ => 1) 5 3) ex_prog.
Proof.
  split; [cbn; intuition lia|]. unfold ex_prog.
  repeat (apply Forall_cons; [cbn; try exact Logic.I; try (split; lia)|]); try apply Forall_nil;
  repeat (apply Forall_cons; [|]); try apply Forall_nil; unfold cell_ok, style_ok, ocolor_ok, color_ok; cbn; intuition lia.
Qed.
Example C348_run : let t := feeds (fun _ => 1) (blank_term 5 3 true) (snd (prun (start 4 2) (ex_prog ++ [Show 1]))) in
  (tch (grid t 0 0), tch (grid t 0 1), tch (grid t 1 1)) = (32, 99, 32).
Proof. vm_compute. reflexivity. Qed.
Example C348_shared : let s := fst (prun (start 4 2) (ex_prog ++ [Show 1])) in
  (holds s 0 = holds s 2 /\ nth_error (bufs s) 0 = nth_error (bufs s) 2 /\ holds s 1 <> holds s 2).
Proof. vm_compute. split; [reflexivity|]. split; [reflexivity|discriminate]. Qed.

(* ---------- sizes ---------- *)
Definition size_of (o : option buffer) : option (nat * nat) := option_map (fun B => (bw B, bh B)) o.

(** C349 is false: a buffer released before the window grew comes back with the old size. *)
Theorem C349_resized_buffer_refuted : exists os taken, careful 0 [] (os ++ [PResize 5 2; GetBuffer taken]) /\
  holds (fst (prun (start 2 1) (os ++ [PResize 5 2; GetBuffer taken]))) (gets os) = Some (new_buffer 2 1).
Proof. exists [GetBuffer None; Release 0], (Some 0%nat). split; [cbn; intuition lia|]. vm_compute. reflexivity. Qed.
(** Nor is it the renderer's Width and Height: those follow the last frame rendered. *)
Theorem C349_buffer_renderer_size_refuted : exists os, careful 0 [] (os ++ [GetBuffer None]) /\
  let s := fst (prun (start 2 1) (os ++ [GetBuffer None])) in
  pwid (rend s) = 3 /\ phei (rend s) = 2 /\ size_of (holds s (gets os)) = Some (2%nat, 1%nat).
Proof. exists [NewBuf 3 2; Show 0]. split; [cbn; intuition lia|]. vm_compute. auto. Qed.

Definition sized (w h : Z) (b : hbuf) : Prop := hw b = Z.to_nat w /\ hh b = Z.to_nat h.
Lemma sized_alloc m w h : sized w h (snd (alloc m w h)).
Proof. unfold sized, alloc. cbn. destruct (w <? 0) eqn:?, (h <? 0) eqn:?; split; lia. Qed.
Definition all_sized (k : nat) (w h : Z) (s : st) : Prop :=
  (k <= length (bufs s))%nat /\ pool_new s = (w, h) /\ Forall (sized w h) (pool s) /\ forall i b, (k <= i)%nat -> nth_error (bufs s) i = Some (b, true) -> sized w h b.
Lemma sized_step k w h s o : all_sized k w h s -> (forall w' h', o = PResize w' h' -> w' = w /\ h' = h) -> (forall i, o = Release i -> (k <= i)%nat) -> all_sized k w h (fst (pstep s o)).
Proof.
  intros (A0 & A1 & A2 & A3) HR Hrel. pose proof (conj A0 (conj A1 (conj A2 A3))) as As. change (all_sized k w h s) in As.
  assert (More : forall m q b f, Forall (sized w h) q -> (f = true -> sized w h b) -> all_sized k w h (St m (rend s) q (pool_new s) (bufs s ++ [(b, f)]))).
  { intros m q b f Hq Hb. split; [cbn; rewrite app_length; lia|]. split; [exact A1|]. split; [exact Hq|]. cbn [bufs]. intros i x Hi Hx. rewrite nth_snoc in Hx.
    destruct (i <? length (bufs s))%nat; [eapply A3; eauto|]. destruct (i =? length (bufs s))%nat; [|discriminate]. injection Hx as <- Hf. auto. }
  assert (Same : forall m r p, all_sized k w h (St m r p (pool_new s) (bufs s)) <-> Forall (sized w h) p).
  { intros m r p. split; [intros (_ & _ & F & _); exact F|]. intros F. split; [exact A0|]. split; [exact A1|]. split; [exact F|exact A3]. }
  destruct o as [taken|w0 h0|i d|i|i| |w0 h0| | |i]; cbn [pstep]; try exact As.
  - assert (New : all_sized k w h (fst (let '(m, b) := alloc (memory s) (fst (pool_new s)) (snd (pool_new s)) in (St (h_clear m b) (rend s) (pool s) (pool_new s) (bufs s ++ [(b, true)]), [] : list Z)))).
    { pose proof (sized_alloc (memory s) (fst (pool_new s)) (snd (pool_new s))) as Sa. destruct (alloc (memory s) (fst (pool_new s)) (snd (pool_new s))) as [m b].
      apply More; [exact A2|]. intros _. rewrite A1 in Sa. exact Sa. }
    destruct taken as [i|]; [|exact New]. destruct (nth_error (pool s) i) as [b|] eqn:Ei; [|exact New]. apply More; [apply drop_Forall, A2|].
    intros _. rewrite Forall_forall in A2. eapply A2, nth_error_In; eauto.
  - destruct (alloc (memory s) w0 h0) as [m b]. apply More; [exact A2|discriminate].
  - destruct (nth_error (bufs s) i) as [[b f]|]; [|exact As]. apply Same, A2.
  - destruct (nth_error (bufs s) i) as [[b f]|]; [|exact As]. destruct (p_render (memory s) (rend s) b) as [[m r] out]. apply Same, A2.
  - destruct (nth_error (bufs s) i) as [[b [|]]|] eqn:Ei; [|exact As|exact As]. apply Same. apply Forall_snoc; [exact A2|]. exact (A3 i b (Hrel i eq_refl) Ei).
  - destruct (p_clear (memory s) (rend s)) as [[m r] out]. apply Same, A2.
  - destruct (HR w0 h0 eq_refl) as [-> ->]. destruct (alloc (memory s) w h) as [m b]. destruct (p_clear m _) as [[m2 r] out].
    split; [exact A0|]. split; [reflexivity|]. split; [exact A2|exact A3].
  - apply Same, drop_Forall, A2.
Qed.
Lemma sized_run k w h os : forall s, all_sized k w h s -> (forall w' h', In (PResize w' h') os -> w' = w /\ h' = h) -> (forall i, In (Release i) os -> (k <= i)%nat) -> all_sized k w h (fst (prun s os)).
Proof.
  induction os as [|o os IH]; intros s A H1 H2; [exact A|]. rewrite prun_cons. cbn [fst]. apply IH.
  - apply sized_step; [exact A| |]; [intros w' h' ->; apply H1; left; reflexivity|intros i ->; apply H2; left; reflexivity].
  - intros w' h' Hin. apply H1. right. exact Hin.
  - intros i Hin. apply H2. right. exact Hin.
Qed.
Lemma sized_get k w h os s taken : all_sized k w h s -> (exists R, inv s R) -> (forall w' h', In (PResize w' h') os -> w' = w /\ h' = h) -> (forall i, In (Release i) os -> (k <= i)%nat) ->
  let s1 := fst (prun s os) in holds (fst (pstep s1 (GetBuffer taken))) (length (bufs s1)) = Some (new_buffer w h).
Proof.
  intros A [R I] H1 H2. cbv zeta. pose proof (sized_run k w h os s A H1 H2) as (B0 & B1 & B2 & B3).
  destruct (inv_run os s R I) as [_ I1]. set (s1 := fst (prun s os)) in *. clearbody s1.
  assert (Last : forall m q b, valid m b -> sized w h b -> holds (St (h_clear m b) (rend s1) q (pool_new s1) (bufs s1 ++ [(b, true)])) (length (bufs s1)) = Some (new_buffer w h)).
  { intros m q b V [S1 S2]. unfold holds. cbn [bufs memory]. rewrite nth_snoc. replace (length (bufs s1) <? length (bufs s1))%nat with false by lia.
    rewrite Nat.eqb_refl. cbn [option_map fst]. destruct (clear_ok m b V) as [_ ->]. f_equal. unfold clear_buf, new_buffer. cbn [deref bw bh]. rewrite ?Nat2Z.id, S1, S2. reflexivity. }
  assert (New : holds (fst (let '(m, b) := alloc (memory s1) (fst (pool_new s1)) (snd (pool_new s1)) in (St (h_clear m b) (rend s1) (pool s1) (pool_new s1) (bufs s1 ++ [(b, true)]), [] : list Z))) (length (bufs s1)) = Some (new_buffer w h)).
  { rewrite B1. cbn [fst snd]. pose proof (sized_alloc (memory s1) w h) as Sa. destruct (alloc (memory s1) w h) as [m b] eqn:Ea. destruct (alloc_ok _ _ _ _ _ Ea) as (_ & Vk & _). rewrite <- B1. apply Last; assumption. }
  cbn [pstep]. destruct taken as [i|]; [|exact New]. destruct (nth_error (pool s1) i) as [b|] eqn:Ei; [|exact New]. apply nth_error_In in Ei.
  apply Last; [eapply pool_valid; eauto|]. rewrite Forall_forall in B2. apply B2, Ei.
Qed.
(** Buffer() has the size of the last Resize as long as no buffer got before that Resize is ever released. *)
Theorem C349_fresh_size_partial : forall w0 h0 before w h after taken,
  (forall i, ~ In (Release i) before) -> (forall w' h', ~ In (PResize w' h') after) -> careful 0 [] before -> (forall i, In (Release i) after -> (gets before <= i)%nat) ->
  let os := before ++ PResize w h :: after in let s := fst (prun (start w0 h0) os) in
  holds (fst (pstep s (GetBuffer taken))) (length (bufs s)) = Some (new_buffer w h).
Proof.
  intros w0 h0 before w h after taken Hr Hz C Ha. cbv zeta.
  destruct (prun_app before (start w0 h0) (PResize w h :: after)) as [-> _]. rewrite prun_cons. cbn [fst].
  pose proof (bufs_len w0 h0 before C) as L. destruct (inv_run before (start w0 h0) _ (inv_start w0 h0)) as [_ I].
  assert (Q : pool (fst (prun (start w0 h0) before)) = []).
  { clear -Hr. assert (G : forall s, pool s = [] -> (forall i, ~ In (Release i) before) -> pool (fst (prun s before)) = []).
    { clear. induction before as [|o os IH]; intros s Hs Hr; [exact Hs|]. rewrite prun_cons. cbn [fst]. apply IH; [|intros i Hin; apply (Hr i); right; exact Hin].
      destruct o as [taken|w1 h1|i d|i|i| |w1 h1| | |i]; cbn [pstep]; try exact Hs.
      - rewrite Hs. destruct taken as [[|i]|]; cbn [nth_error]; destruct (alloc (memory s) (fst (pool_new s)) (snd (pool_new s))); cbn [fst pool]; auto.
      - destruct (nth_error (bufs s) i) as [[b f]|]; exact Hs.
      - destruct (nth_error (bufs s) i) as [[b f]|]; [|exact Hs]. destruct (p_render (memory s) (rend s) b) as [[m r] out]. exact Hs.
      - exfalso. apply (Hr i). left. reflexivity.
      - destruct (p_clear (memory s) (rend s)) as [[m r] out]. exact Hs.
      - destruct (alloc (memory s) w1 h1) as [m b]. destruct (p_clear m _) as [[m2 r] out]. exact Hs.
      - cbn. rewrite Hs. destruct i; reflexivity. }
    apply G; [|exact Hr]. destruct (start_bufs w0 h0) as (_ & E1 & _). exact E1. }
  set (s := fst (prun (start w0 h0) before)) in *. clearbody s.
  destruct (inv_step s _ (PResize w h) I) as (R' & _ & I').
  apply (sized_get (gets before) w h after); [|exists R'; exact I'|intros w' h' Hin; exfalso; exact (Hz w' h' Hin)|exact Ha].
  cbn [pstep]. destruct (alloc (memory s) w h) as [m b]. destruct (p_clear m _) as [[m2 r] out].
  split; [cbn; lia|]. split; [reflexivity|]. cbn [fst pool bufs]. split; [rewrite Q; constructor|]. intros i x Hi Hx.
  assert (i < length (bufs s))%nat by (apply nth_error_Some; rewrite Hx; discriminate). lia.
Qed.
(** And the size the renderer was made with if it is never resized to another. *)
Theorem C349_unresized_size_partial : forall w h os taken, (forall w' h', In (PResize w' h') os -> w' = w /\ h' = h) ->
  let s := fst (prun (start w h) os) in holds (fst (pstep s (GetBuffer taken))) (length (bufs s)) = Some (new_buffer w h).
Proof.
  intros w h os taken H. apply (sized_get 0); [|exists (new_renderer w h); apply inv_start|exact H|lia].
  destruct (start_bufs w h) as (Eb & Ep & En). split; [lia|]. split; [exact En|]. rewrite Ep, Eb. split; [constructor|]. intros i b _ Hi. destruct i; discriminate.
Qed.
Example C349_hyps : let before := [GetBuffer None; Draw 0 DClear; NewBuf 1 1] in let after := [GetBuffer None; Release 2; Show 0] in
  (forall i, ~ In (Release i) before) /\ (forall w' h', ~ In (PResize w' h') after) /\ careful 0 [] before /\ (forall i, In (Release i) after -> (gets before <= i)%nat).
Proof. cbn. split; [|split; [|split]]; try (intros; intuition discriminate); [intuition lia|]. intros i [H|[H|[H|[]]]]; try discriminate. injection H as <-. lia. Qed.

(* ---------- releasing twice ---------- *)
(** C350 is false: after a second Release the pool hands the same buffer out twice, and drawing in one of the two draws
    in the other. *)
Theorem C350_double_release_refuted : exists os i j c, let s := fst (prun (start 2 1) os) in
  (exists k, os = [GetBuffer None; Release k; Release k; GetBuffer (Some 0%nat); GetBuffer (Some 0%nat)]) /\ i <> j /\
  holds s i = Some (new_buffer 2 1) /\ holds s j = Some (new_buffer 2 1) /\
  holds (fst (pstep s (Draw i (DSet 0 0 c)))) j <> holds s j.
Proof.
  exists [GetBuffer None; Release 0; Release 0; GetBuffer (Some 0%nat); GetBuffer (Some 0%nat)], 1%nat, 2%nat, (Cell 97 style0 1). cbv zeta.
  split; [exists O; reflexivity|]. split; [discriminate|]. vm_compute. split; [reflexivity|]. split; [reflexivity|discriminate].
Qed.
(** A buffer made with NewBuffer may be released any number of times: nothing changes. *)
Theorem C350_standalone_partial : forall w h os i b, nth_error (bufs (fst (prun (start w h) os))) i = Some (b, false) ->
  prun (start w h) (os ++ [Release i]) = prun (start w h) os.
Proof.
  intros w h os i b Hi. destruct (prun_app os (start w h) [Release i]) as [E1 E2].
  rewrite prun_cons in E1, E2. cbn [pstep] in E1, E2. rewrite Hi in E1, E2. cbn [prun fst snd app] in E1, E2. rewrite app_nil_r in E2.
  apply injective_projections; assumption.
Qed.
Example C350_hyps : exists b, nth_error (bufs (fst (prun (start 2 1) [NewBuf 2 2; Draw 0 DClear]))) 0 = Some (b, false).
Proof. eexists. reflexivity. Qed.

Print Assumptions C348_frames_as_rendered. Print Assumptions C348_only_renderer_writes. Print Assumptions C348_own_drawings. Print Assumptions C348_screen_shows_drawings.
Print Assumptions C348_buffer_blank. Print Assumptions C349_resized_buffer_refuted. Print Assumptions C349_buffer_renderer_size_refuted. Print Assumptions C349_fresh_size_partial.
Print Assumptions C349_unresized_size_partial. Print Assumptions C350_double_release_refuted. Print Assumptions C350_standalone_partial.
