(** C255 - C257: what is on the screen while the program runs. *)
From Verif Require Import Prelude Utf8 TermEmu RenderEmu InlineModel InlineSpec TruncProofs TruncItems InlineEmu InlineFrames InlineProps PdModel.

Section Display.
Variable zw : Z -> bool.
Variables Mdl Msg : Type.
Variable update : Mdl -> Msg -> Mdl.
Variable lines : Mdl -> list (list item).       (* the view, as styled lines *)
Variable size : Msg -> option (Z * Z).
Let view (m : Mdl) : list Z := view_bytes (lines m).

(** The model after the messages, and the size of the terminal as last announced (0, 0: not announced). *)
Definition current (m : Mdl) (ms : list Msg) : Mdl := fold_left update ms m.
Definition announced (ms : list Msg) : Z * Z := fold_left (fun wh m => match size m with Some wh' => wh' | None => wh end) ms (0, 0).

(** The same session as calls of the inline renderer (only to say which sessions C11 covers). *)
Fixpoint calls (m : Mdl) (ms : list Msg) : list scall :=
  match ms with
  | [] => []
  | a :: r => (match size a with Some (w, h) => [SResize w h] | None => [] end) ++ SRender (lines (update m a)) :: calls (update m a) r
  end.

Lemma calls_out m ms : forall r s,
  snd (do_events zw Mdl Msg update view size false (Prog Mdl m (Some r) s) (map Handle ms)) = snd (do_icalls zw r (map to_icall (calls m ms))).
Proof using.
  revert m. induction ms as [|a ms IH]; intros m r s; [reflexivity|]. cbn [map do_events do_event calls].
  unfold handle. cbn [rend mdl susp]. destruct (size a) as [(w, h)|]; cbn [app map to_icall do_icalls do_icall].
  - unfold render_view. cbn [rend mdl susp]. unfold view at 1. destruct (irender zw (iresize r w h) (view_bytes (lines (update m a)))) as (r', o).
    specialize (IH (update m a) r' s). destruct (do_events _ _ _ _ _ _ _ _ _) as (p2, o2). cbn [snd] in IH. rewrite IH.
    destruct (do_icalls zw r' (map to_icall (calls (update m a) ms))). reflexivity.
  - unfold render_view. cbn [rend mdl susp]. unfold view at 1. destruct (irender zw r (view_bytes (lines (update m a)))) as (r', o).
    specialize (IH (update m a) r' s). destruct (do_events _ _ _ _ _ _ _ _ _) as (p2, o2). cbn [snd] in IH. rewrite IH.
    destruct (do_icalls zw r' (map to_icall (calls (update m a) ms))). reflexivity.
Qed.

Lemma calls_shown cw m ms : forall w h cur,
  displayed cw w h cur (calls m ms) =
  match ms with
  | [] => cur
  | _ => let '(w', h') := fold_left (fun wh x => match size x with Some wh' => wh' | None => wh end) ms (w, h) in
         map (fitted cw w') (keep h' (lines (current m ms)))
  end.
Proof using.
  revert m. induction ms as [|a ms IH]; intros m w h cur; [reflexivity|]. cbn [calls fold_left current].
  assert (G : forall w1 h1 c1, displayed cw w1 h1 c1 (SRender (lines (update m a)) :: calls (update m a) ms) =
    (let '(w', h') := fold_left (fun wh x => match size x with Some wh' => wh' | None => wh end) ms (w1, h1) in
     map (fitted cw w') (keep h' (lines (fold_left update ms (update m a)))))).
  { intros w1 h1 c1. cbn [displayed]. rewrite IH. destruct ms; [reflexivity|]. reflexivity. }
  destruct (size a) as [(w1, h1)|]; cbn [app displayed]; apply (G _ _ cur).
Qed.

(** * C255 *)
(** On a [W] x [H] terminal with the cursor at the start of row [cy t] and blank rows from there on: after the
    initial view and any messages, some row [top] is such that row [top + j] shows line [j] of the view of the
    current model (the last [h] lines of it, cut to [w] columns, for the size last announced), and all rows further down are blank. *)
Theorem C255_screen_shows_the_model : forall cw W H t m ms,
  1 <= W -> tw t = W -> th t = H -> pst t = Ground -> pend t = false -> cx t = 0 -> 0 <= cy t < H ->
  (forall x y, 0 <= x < W -> cy t <= y < H -> cell2 (grid t x y) = blankc) ->
  adm cw zw W H 0 0 false [] (SRender (lines m) :: calls m ms) ->
  let t' := emu cw t (snd (session zw Mdl Msg update view size false m (map Handle ms))) in
  let '(w, h) := announced ms in
  let frame := keep h (lines (current m ms)) in
  exists top, 0 <= top <= cy t /\
    (forall j x, 0 <= x < W -> top + Z.of_nat j < H ->
       cell2 (grid t' x (top + Z.of_nat j)) = nth (Z.to_nat x) (paint cw (visible (nth j (map (fitted (rdw zw) w) frame) []))) blankc) /\
    (forall x y, 0 <= y < top -> grid t' x y = grid t x (y + (cy t - top))).
Proof using.
  intros cw W H t m ms H1 H2 H3 H4 H5 H6 H7 H8 Ad t'.
  destruct (announced ms) as (w, h) eqn:An. intros frame.
  pose proof (C11_region_shows_last_view cw zw W H t 0 0 (SRender (lines m) :: calls m ms) H1 H2 H3 H4 H5 H6 H7 H8 Ad) as (top & T1 & _ & _ & _ & T2 & T3).
  exists top. split; [exact T1|].
  assert (Eo : snd (session zw Mdl Msg update view size false m (map Handle ms)) = snd (do_icalls zw (new_inline 0 0) (map to_icall (SRender (lines m) :: calls m ms)))).
  { unfold session, begin, render_view. cbn [rend mdl susp map to_icall do_icalls do_icall]. unfold view at 1. destruct (irender zw (new_inline 0 0) (view_bytes (lines m))) as (r', o).
    pose proof (calls_out m ms r' false) as C. destruct (do_events _ _ _ _ _ _ _ _ _) as (p2, o2). cbn [snd] in C. rewrite C.
    destruct (do_icalls zw r' (map to_icall (calls m ms))). reflexivity. }
  assert (Ef : displayed (rdw zw) 0 0 [] (SRender (lines m) :: calls m ms) = map (fitted (rdw zw) w) frame).
  { cbn [displayed]. rewrite calls_shown. unfold announced in An. unfold frame, current. destruct ms as [|a ms].
    - cbn in An. injection An as <- <-. reflexivity.
    - rewrite An. reflexivity. }
  rewrite Ef in T2. unfold t'. rewrite Eo. split; [exact T2|exact T3].
Qed.

(** * C257 *)
(** In inline mode a suspended program that handles messages without changing its view writes nothing. *)
Theorem C257_unchanged_view_partial : forall (v : Mdl -> list Z) p ms,
  susp Mdl p = true -> Forall (fun x => size x = None) ms ->
  (exists r, rend Mdl p = Some r /\ last_view r = v (mdl Mdl p) /\ (0 < nrend r)%nat) ->
  (forall k, v (current (mdl Mdl p) (firstn k ms)) = v (mdl Mdl p)) ->
  snd (do_events zw Mdl Msg update v size false p (map Handle ms)) = [].
Proof using.
  intros v p ms. revert p. induction ms as [|a ms IH]; intros p Su Fs (r & Er & Lv & Nr) Un; [reflexivity|].
  cbn [map do_events do_event]. unfold handle. inversion Fs as [|x l Sa Fs' E1]; subst. rewrite Sa, Er. unfold render_view. cbn [rend mdl susp].
  pose proof (Un 1%nat) as U1. cbn in U1. unfold irender at 1. rewrite U1, Lv.
  assert (Eq : list_eqb (v (mdl Mdl p)) (v (mdl Mdl p)) = true) by (apply list_eqb_eq; reflexivity). rewrite Eq. cbn [andb].
  assert (Nz : (0 <? Z.of_nat (nrend r)) = true) by (apply Z.ltb_lt; lia). rewrite Nz.
  specialize (IH (Prog Mdl (update (mdl Mdl p) a) (Some r) (susp Mdl p)) Su Fs'). cbn [rend mdl susp] in IH.
  destruct (do_events _ _ _ _ _ _ _ _ _) as (p2, o2). cbn [snd app] in *. apply IH.
  - exists r. rewrite U1. auto.
  - intros k. rewrite U1. apply (Un (S k)).
Qed.
End Display.

(** The program does not look at the suspension when it handles a message: it writes what it would write anyway. *)
Theorem C257_refuted : forall zw alt, exists (update : bool -> unit -> bool) (view : bool -> list Z) p,
  p = fst (do_events zw bool unit update view (fun _ => None) alt (fst (begin zw bool view alt false)) [Suspend]) /\ susp bool p = true /\
  snd (do_events zw bool unit update view (fun _ => None) alt p [Handle tt]) <> [].
Proof.
  intros zw alt. exists (fun (b : bool) (_ : unit) => negb b), (fun b : bool => if b then [98] else [97]). eexists. split; [reflexivity|].
  destruct alt; (split; [reflexivity|]); vm_compute; discriminate.
Qed.

(** * C256 *)
Definition printable (c : Z) : Prop := 32 <= c < 127.
Section Alt.
Variable cw : Z -> Z.
Hypothesis cw1 : forall c, printable c -> cw c = 1.

Lemma feeds_plain s : forall t, pst t = Ground -> pend t = false -> 0 <= cx t -> cx t + Z.of_nat (length s) < tw t -> Forall printable s ->
  (forall x y, tkind (grid t x y) = Single) ->
  let t' := feeds cw t s in
  pst t' = Ground /\ pend t' = false /\ tw t' = tw t /\ th t' = th t /\ cx t' = cx t + Z.of_nat (length s) /\ cy t' = cy t /\ (forall x y, tkind (grid t' x y) = Single) /\
  (forall x y, tch (grid t' x y) = if (y =? cy t) && (cx t <=? x) && (x <? cx t + Z.of_nat (length s)) then nth (Z.to_nat (x - cx t)) s 32 else tch (grid t x y)).
Proof using cw1.
  induction s as [|c s IH]; intros t Hp Hn Hx Hw Hs Hk.
  - cbn. repeat (split; [solve [auto]|]). split; [lia|]. repeat (split; [solve [auto]|]). intros x y. destruct (_ && _ && _) eqn:E; [|reflexivity]. lia.
  - inversion Hs as [|x l Pc Hs' E1]; subst. cbn [length] in Hw. rewrite Nat2Z.inj_succ in Hw. rewrite feeds_cons.
    assert (Ef : feed cw t c = set_cur (set_grid t (gset (grid t) (cx t) (cy t) (TCell c (tpn t) Single))) (cx t + 1) (cy t) false).
    { unfold feed. rewrite Hp. unfold printable in Pc.
      replace (c =? 27) with false by lia. replace (c =? 13) with false by lia. replace (c =? 10) with false by lia. replace (c <? 32) with false by lia. replace (c =? 127) with false by lia. cbn [orb].
      unfold put. rewrite (cw1 c Pc). cbn [Z.leb Z.compare]. rewrite Hn. replace (tw t <? cx t + 1) with false by lia. cbn [orb].
      unfold break_wide. rewrite Hk. cbn [Z.eqb Pos.eqb]. replace (cx t + 1 <? tw t) with true by lia. reflexivity. }
    rewrite Ef. set (t1 := set_cur _ _ _ _).
    specialize (IH t1). cbn [pst pend cx cy tw th grid t1 set_cur set_grid] in IH. fold t1 in IH.
    destruct IH as (Q1 & Q2 & Q3 & Q4 & Q5 & Q6 & Q7 & Q8); auto; try lia.
    { intros x y. unfold gset. destruct (_ && _); [reflexivity|apply Hk]. }
    cbn [length]. rewrite Nat2Z.inj_succ. repeat (split; [first [assumption|lia]|]). intros x y. rewrite Q8. unfold gset.
    destruct (Z.eqb_spec y (cy t)) as [Ey|Ny]; cbn [andb].
    + destruct (Z.eqb_spec x (cx t)) as [Ex|Nx].
      * subst x. replace (cx t + 1 <=? cx t) with false by lia. cbn [andb]. replace (cx t <=? cx t) with true by lia. replace (cx t <? cx t + Z.succ (Z.of_nat (length s))) with true by lia. cbn [andb].
        rewrite Z.sub_diag. cbn. reflexivity.
      * cbn [andb]. destruct (cx t + 1 <=? x) eqn:G1.
        { replace (cx t <=? x) with true by lia. cbn [andb]. replace (x <? cx t + Z.succ (Z.of_nat (length s))) with (x <? cx t + 1 + Z.of_nat (length s)) by (destruct (x <? cx t + 1 + Z.of_nat (length s)) eqn:A; symmetry; lia).
          destruct (x <? cx t + 1 + Z.of_nat (length s)); [|reflexivity]. replace (Z.to_nat (x - cx t)) with (S (Z.to_nat (x - (cx t + 1)))) by lia. reflexivity. }
        { replace (cx t <=? x) with false by lia. reflexivity. }
    + rewrite andb_false_r. reflexivity.
Qed.

(** What the terminal has got: the switch to the alternate screen (ansi.go:380), then the session. *)
Definition alt_screen (W H : Z) (bs : list Z) : term := feeds cw (blank_term W H false) ([27; 91; 63; 49; 48; 52; 57; 104] ++ bs).
Definition on : list Z := [27; 91; 63; 49; 48; 52; 57; 104].

Lemma alt_start W H : let t := feeds cw (blank_term W H false) on in
  pst t = Ground /\ pend t = false /\ tw t = W /\ th t = H /\ cx t = 0 /\ cy t = 0 /\ alt t = true /\ (forall x y, grid t x y = TCell 32 pen0 Single).
Proof using. clear cw1. cbn. auto 10. Qed.

(** The first view, if it is a single line, is shown. *)
Theorem C256_first_line_partial : forall zw Mdl Msg (update : Mdl -> Msg -> Mdl) (view : Mdl -> list Z) size m W H x y,
  Forall printable (view m) -> Z.of_nat (length (view m)) < W -> 0 <= x < W -> 0 <= y < H ->
  tch (grid (alt_screen W H (snd (session zw Mdl Msg update view size true m []))) x y) = if y =? 0 then nth (Z.to_nat x) (view m) 32 else 32.
Proof using cw1.
  intros zw Mdl Msg update view size m W H x y Pv Lv Hx Hy. unfold alt_screen, session, begin, render_view. cbn [do_events snd mdl]. rewrite app_nil_r. fold on. rewrite feeds_app.
  destruct (alt_start W H) as (A1 & A2 & A3 & A4 & A5 & A6 & A7 & A8). set (t := feeds cw (blank_term W H false) on) in *.
  destruct (feeds_plain (view m) t) as (_ & _ & _ & _ & _ & _ & _ & G); auto; try lia.
  rewrite G, A5, A6, A8. cbn [tch]. destruct (y =? 0) eqn:Ey; cbn [andb]; [|reflexivity]. replace (0 <=? x) with true by lia. cbn [andb].
  destruct (x <? 0 + Z.of_nat (length (view m))) eqn:E; [f_equal; lia|]. rewrite nth_overflow; [reflexivity|lia].
Qed.

(** The second view is written behind the first one: the screen shows both, one after the other. *)
Theorem C256_frames_pile_up_refuted : forall zw Mdl Msg (update : Mdl -> Msg -> Mdl) (view : Mdl -> list Z) m msg W H x,
  let v := view m ++ view (update m msg) in Forall printable v -> Z.of_nat (length v) < W -> 0 <= x < W ->
  tch (grid (alt_screen W H (snd (session zw Mdl Msg update view (fun _ => None) true m [Handle msg]))) x 0) = nth (Z.to_nat x) v 32.
Proof using cw1.
  intros zw Mdl Msg update view m msg W H x v Pv Lv Hx. unfold alt_screen, session, begin, render_view. cbn [do_events do_event handle render_view rend mdl susp snd]. rewrite app_nil_r. fold v. fold on. rewrite feeds_app.
  destruct (alt_start W H) as (A1 & A2 & A3 & A4 & A5 & A6 & A7 & A8). set (t := feeds cw (blank_term W H false) on) in *.
  destruct (feeds_plain v t) as (_ & _ & _ & _ & _ & _ & _ & G); auto; try lia.
  rewrite G, A5, A6, A8. cbn [tch]. replace (0 <=? x) with true by lia. cbn [andb Z.eqb].
  destruct (x <? 0 + Z.of_nat (length v)) eqn:E; [f_equal; lia|]. rewrite nth_overflow; [reflexivity|lia].
Qed.

(** In raw mode the line feed does not return to the first column: the second line starts below the end of the first. *)
Theorem C256_staircase_refuted : forall zw Mdl Msg (update : Mdl -> Msg -> Mdl) (view : Mdl -> list Z) size m W H l1 l2 x,
  view m = l1 ++ 10 :: l2 -> Forall printable l1 -> Forall printable l2 -> Z.of_nat (length l1 + length l2) < W -> 1 < H -> 0 <= x < W ->
  tch (grid (alt_screen W H (snd (session zw Mdl Msg update view size true m []))) x 1) = nth (Z.to_nat x) (repeat 32 (length l1) ++ l2) 32.
Proof using cw1.
  intros zw Mdl Msg update view size m W H l1 l2 x Ev P1 P2 Lv HH Hx. unfold alt_screen, session, begin, render_view. cbn [do_events snd mdl]. rewrite app_nil_r. fold on. rewrite Ev, feeds_app, feeds_app, feeds_cons.
  destruct (alt_start W H) as (A1 & A2 & A3 & A4 & A5 & A6 & A7 & A8). set (t := feeds cw (blank_term W H false) on) in *.
  destruct (feeds_plain l1 t) as (B1 & B2 & B3 & B4 & B5 & B6 & B7 & B8); auto; try lia.
  set (t1 := feeds cw t l1) in *.
  assert (Ef : feed cw t1 10 = set_cur t1 (cx t1) (cy t1 + 1) false).
  { unfold feed. rewrite B1. cbn [Z.eqb Pos.eqb]. unfold line_feed. replace (cy t1 + 1 <? th t1) with true by lia. reflexivity. }
  rewrite Ef. set (t2 := set_cur t1 (cx t1) (cy t1 + 1) false) in *.
  destruct (feeds_plain l2 t2) as (_ & _ & _ & _ & _ & _ & _ & G); auto; cbn [t2 set_cur cx cy tw grid]; try lia.
  rewrite G. cbn [t2 set_cur cx cy tw grid]. rewrite B8, B5, B6, A5, A6, A8. cbn [tch].
  replace (1 =? 0) with false by lia. cbn [andb]. replace (1 =? 0 + 1) with true by lia. cbn [andb].
  destruct (0 + Z.of_nat (length l1) <=? x) eqn:E1.
  - cbn [andb]. rewrite app_nth2 by (rewrite repeat_length; lia). rewrite repeat_length.
    destruct (x <? _) eqn:E2; [f_equal; lia|]. rewrite nth_overflow; [reflexivity|lia].
  - cbn [andb]. rewrite app_nth1 by (rewrite repeat_length; lia). rewrite nth_repeat. reflexivity.
Qed.
End Alt.

(** A counter with two lines; the second message announces the size. *)
Definition ctr_lines (m : Z) : list (list item) := [txt [110; 61]; txt [48 + m]].
Definition ctr_update (m : Z) (a : Z * option (Z * Z)) : Z := m + fst a.
Example C255_case : let ms := [(1, None); (1, Some (5, 3)); (2, None)] in
  adm (rdw zw0) zw0 6 4 0 0 false [] (SRender (ctr_lines 0) :: calls Z (Z * option (Z * Z)) ctr_update ctr_lines snd 0 ms) /\
  current Z (Z * option (Z * Z)) ctr_update 0 ms = 4 /\ announced (Z * option (Z * Z)) snd ms = (5, 3).
Proof.
  cbn zeta. split; [|split; reflexivity].
  assert (Hok : forall s, Forall (fun c => scalar c /\ 32 <= c /\ c <> 127) s -> Forall (show_ok (rdw zw0) (rdw zw0)) (txt s)).
  { intros s Hs. unfold txt. rewrite Forall_map. eapply Forall_impl; [|exact Hs]. cbn. tauto. }
  assert (Hc : forall m, 0 <= m <= 9 -> Forall (Forall (show_ok (rdw zw0) (rdw zw0))) (ctr_lines m)).
  { intros m Hm. unfold ctr_lines. constructor; [apply Hok; repeat constructor; unfold scalar; lia|]. constructor; [apply Hok; repeat constructor; unfold scalar; lia|constructor]. }
  assert (Hw : forall w W ls, forallb (fun l => cols (rdw zw0) (visible (fitted (rdw zw0) w l)) <? W) ls = true ->
    Forall (fun l => cols (rdw zw0) (visible (fitted (rdw zw0) w l)) < W) ls).
  { intros w W ls Hb. rewrite forallb_forall in Hb. rewrite Forall_forall. intros l Hl. specialize (Hb l Hl). lia. }
  cbn [calls ctr_update fst snd app adm].
  repeat match goal with
  | |- _ /\ _ => split
  | |- Forall (Forall _) _ => apply Hc; cbn; lia
  | |- ctr_lines _ <> [] => discriminate
  | |- True => exact Logic.I
  | |- Forall _ (keep _ _) => apply Hw; vm_compute; reflexivity
  | |- Z.of_nat _ <= _ => apply Z.leb_le; vm_compute; reflexivity
  | |- false = true -> _ => discriminate
  | |- true = false -> _ => discriminate
  | |- _ -> _ => intro
  end; try (vm_compute; discriminate); try (vm_compute in H0; lia).
Qed.

Lemma zw0_one : forall c, printable c -> rdw zw0 c = 1.
Proof.
  intros c Hc. unfold printable in Hc. assert (E : exists k, (k < 95)%nat /\ c = 32 + Z.of_nat k) by (exists (Z.to_nat (c - 32)); lia). destruct E as (k & Hk & ->).
  do 95 (destruct k as [|k]; [vm_compute; reflexivity|]). lia.
Qed.
Definition ctr_view (m : Z) : list Z := [110; 61; 48 + m].
Example C256_case : map (fun x => tch (grid (alt_screen (rdw zw0) 20 5 (snd (session zw0 Z Z Z.add ctr_view (fun _ => None) true 0 [Handle 1]))) x 0)) [0; 1; 2; 3; 4; 5; 6]
  = [110; 61; 48; 110; 61; 49; 32] /\ Forall printable (ctr_view 0 ++ ctr_view 1).
Proof. split; [vm_compute; reflexivity|repeat constructor; unfold printable; lia]. Qed.
Example C257_case : let p := fst (do_events zw0 Z Z Z.add (fun m => ctr_view (m / 10)) (fun _ => None) false (fst (begin zw0 Z (fun m => ctr_view (m / 10)) false 20)) [Suspend]) in
  susp Z p = true /\ (exists r, rend Z p = Some r /\ last_view r = ctr_view (mdl Z p / 10) /\ (0 < nrend r)%nat) /\ ctr_view ((mdl Z p + 3) / 10) = ctr_view (mdl Z p / 10).
Proof. split; [reflexivity|]. split; [|reflexivity]. eexists. split; [reflexivity|]. split; [reflexivity|]. cbn. lia. Qed.

Print Assumptions C255_screen_shows_the_model. Print Assumptions C257_unchanged_view_partial. Print Assumptions C257_refuted. Print Assumptions C256_first_line_partial.
Print Assumptions C256_frames_pile_up_refuted. Print Assumptions C256_staircase_refuted.
