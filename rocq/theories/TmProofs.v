(** Proofs about the ANSI terminal model. *)
From Verif Require Import Prelude TermEmu RenderModel RenderEmu TmModel TmSpec.

Section P.
Variable cw : Z -> Z.
Variable T : Type.
Variable mkraw : T -> T.
Notation feeds := (feeds cw).
Notation feed := (feed cw).
Notation dev := (dev T).
Notation Dev := (Dev T).
Notation dfeeds := (dfeeds cw T).
Notation dfeed := (dfeed cw T).

(* ---------- single control sequences ---------- *)
Lemma f_csi1 t n f : pst t = Ground -> 0 <= n -> 64 <= f <= 126 ->
  feeds t (csi1 n f) = csi f [n] false t.
Proof using.
  intros. change (csi1 n f) with (27 :: 91 :: join59 (map dec [n]) ++ [f]).
  apply feeds_csi; auto; discriminate.
Qed.

Lemma f_cr t : pst t = Ground -> feed t 13 = set_cur t 0 (cy t) false.
Proof using. intros H. unfold TermEmu.feed. rewrite H. reflexivity. Qed.

(** Sequences made of literals. *)
Lemma f_J t : pst t = Ground ->
  feeds t [27; 91; 74] = erase_where t (fun x y => (cy t <? y) || ((y =? cy t) && (cx t <=? x))).
Proof using. intros H. destruct t; cbn in H; subst; reflexivity. Qed.
Lemma f_s t : pst t = Ground -> feeds t [27; 91; 115] = set_saved t (cx t, cy t).
Proof using. intros H. destruct t; cbn in H; subst; reflexivity. Qed.
Lemma f_u t : pst t = Ground -> feeds t [27; 91; 117] = set_cur t (fst (saved t)) (snd (saved t)) false.
Proof using. intros H. destruct t; cbn in H; subst; reflexivity. Qed.
Lemma f_hide t : pst t = Ground -> feeds t [27; 91; 63; 50; 53; 108] = set_vis t false.
Proof using. intros H. destruct t; cbn in H; subst; reflexivity. Qed.
Lemma f_show t : pst t = Ground -> feeds t [27; 91; 63; 50; 53; 104] = set_vis t true.
Proof using. intros H. destruct t; cbn in H; subst; reflexivity. Qed.
Lemma f_style t s b : pst t = Ground -> style_code s = Some b -> feeds t b = t.
Proof using.
  intros H. unfold style_code.
  destruct (s =? 0); [intros E; injection E as <-; destruct t; cbn in H; subst; reflexivity|].
  destruct (s =? 1); [intros E; injection E as <-; destruct t; cbn in H; subst; reflexivity|].
  destruct (s =? 2); [intros E; injection E as <-; destruct t; cbn in H; subst; reflexivity|discriminate].
Qed.
Lemma f_clear t : pst t = Ground ->
  feeds t clear_code = set_cur (erase_where t (fun _ _ => true))
    (clampZ 0 (tw t - 1) 0) (clampZ 0 (th t - 1) 0) false.
Proof using. intros H. destruct t; cbn in H; subst; reflexivity. Qed.
Lemma f_clear_line t : pst t = Ground ->
  feeds t clear_line_code = erase_where (set_cur t 0 (cy t) false) (fun x y => y =? cy t).
Proof using. intros H. destruct t; cbn in H; subst; reflexivity. Qed.
Lemma f_alt_on t : pst t = Ground -> feeds t alt_on_code = set_alt t true.
Proof using. intros H. destruct t; cbn in H; subst; reflexivity. Qed.
Lemma f_alt_off t : pst t = Ground -> feeds t alt_off_code = set_alt t false.
Proof using. intros H. destruct t; cbn in H; subst; reflexivity. Qed.

Lemma f_clear_lines t n : pst t = Ground -> 0 < n -> 0 <= cy t ->
  exists w, clear_lines_code n = [w] /\
  feeds t w = (let t1 := set_cur t 0 (Z.max 0 (cy t - (n - 1))) false in
               erase_where t1 (fun x y => (cy t1 <? y) || ((y =? cy t1) && (0 <=? x)))).
Proof using.
  intros Hp Hn Hy. unfold clear_lines_code.
  replace (n <=? 0) with false by lia. destruct (n =? 1) eqn:E.
  - apply Z.eqb_eq in E; subst n. eexists. split; [reflexivity|].
    rewrite feeds_cons, f_cr, f_J by auto. cbn zeta.
    replace (Z.max 0 (cy t - (1 - 1))) with (cy t) by lia. reflexivity.
  - eexists. split; [reflexivity|].
    change (27 :: 91 :: dec (n - 1) ++ [65; 13; 27; 91; 74])
      with (27 :: 91 :: dec (n - 1) ++ [65] ++ [13; 27; 91; 74]).
    replace (27 :: 91 :: dec (n - 1) ++ [65] ++ [13; 27; 91; 74]) with (csi1 (n - 1) 65 ++ [13; 27; 91; 74]).
    2:{ unfold csi1. cbn [app]. rewrite <- app_assoc. reflexivity. }
    rewrite feeds_app, f_csi1 by (auto; lia).
    assert (HA : csi 65 [n - 1] false t = set_cur t (cx t) (Z.max 0 (cy t - (n - 1))) false).
    { unfold csi, nthp. cbn [nth Z.eqb Pos.eqb]. f_equal. lia. }
    rewrite HA. rewrite feeds_cons, f_cr, f_J by auto. reflexivity.
Qed.

(* ---------- bytes that cannot change the alternate-screen flag ---------- *)
Fixpoint quiet (t : term) (bs : list Z) : Prop :=
  match bs with [] => True | c :: r => alt (feed t c) = alt t /\ quiet (feed t c) r end.

Lemma quiet_app a : forall t b, quiet t a -> quiet (feeds t a) b -> quiet t (a ++ b).
Proof using.
  induction a as [|c a IH]; intros t b Ha Hb; auto.
  destruct Ha as [H1 H2]. split; auto.
Qed.

Lemma quiet_alt bs : forall t, quiet t bs -> alt (feeds t bs) = alt t.
Proof using.
  induction bs as [|c bs IH]; intros t Hq; auto. destruct Hq as [H1 H2].
  rewrite feeds_cons, IH, H1; auto.
Qed.

Lemma dfeeds_quiet bs : forall t b y, quiet t bs -> dfeeds (Dev t b y) bs = Dev (feeds t bs) b y.
Proof using.
  induction bs as [|c bs IH]; intros t b y Hq; auto. destruct Hq as [H1 H2].
  change (dfeeds (Dev t b y) (c :: bs)) with (dfeeds (dfeed (Dev t b y) c) bs).
  unfold TmModel.dfeed. cbn [scr back tty]. rewrite H1, Bool.eqb_reflx.
  rewrite IH; auto.
Qed.

Definition same_dims (t t' : term) : Prop := tw t' = tw t /\ th t' = th t.

Lemma put_ok c t : wf t -> wf (put cw c t) /\ alt (put cw c t) = alt t /\ same_dims t (put cw c t).
Proof using.
  intros [Hp Hx Hy Hs]. unfold put. destruct (cw c <=? 0) eqn:E0; [split; [constructor|split;[|split]]; auto|].
  assert (HL : forall u, wf u -> wf (line_feed (set_cur u 0 (cy u) false)) /\
     alt (line_feed (set_cur u 0 (cy u) false)) = alt u /\ tw (line_feed (set_cur u 0 (cy u) false)) = tw u
     /\ th (line_feed (set_cur u 0 (cy u) false)) = th u /\ cx (line_feed (set_cur u 0 (cy u) false)) = 0).
  { intros u [Up Ux Uy Us]. unfold line_feed. cbn [cy th set_cur cx].
    destruct (cy u + 1 <? th u) eqn:Eu; cbn [set_cur set_grid alt tw th cx]; repeat split; cbn; auto; try lia. }
  set (t1 := if pend t || (tw t <? cx t + cw c) then line_feed (set_cur t 0 (cy t) false) else t).
  assert (H1 : wf t1 /\ alt t1 = alt t /\ tw t1 = tw t /\ th t1 = th t).
  { unfold t1. destruct (pend t || (tw t <? cx t + cw c)).
    - destruct (HL t) as (A & B & C & D & _); [constructor; auto|]. auto.
    - repeat split; auto; lia. }
  clearbody t1. destruct H1 as ([Tp Tx Ty Ts] & Ha & Hw & Hh).
  cbv zeta. destruct (cx t1 + cw c <? tw t) eqn:E1; cbn [set_cur set_grid alt tw th];
    (split; [constructor; cbn [set_cur set_grid pst cx cy tw th saved]; auto; lia|]); split; auto; split; auto.
Qed.

Lemma feed_plain c t : wf t -> c <> 27 ->
  wf (feed t c) /\ alt (feed t c) = alt t /\ same_dims t (feed t c).
Proof using.
  intros Hwf Hc. assert (Hwf' := Hwf). destruct Hwf as [Hp Hx Hy Hs]. unfold TermEmu.feed. rewrite Hp.
  replace (c =? 27) with false by lia.
  destruct (c =? 13); [repeat split; cbn; auto; lia|].
  destruct (c =? 10).
  { unfold line_feed. destruct (cy t + 1 <? th t) eqn:E; cbn [set_cur set_grid alt tw th];
    repeat split; cbn; auto; lia. }
  destruct ((c <? 32) || (c =? 127)); [repeat split; auto; lia|].
  apply put_ok; auto.
Qed.

Lemma feeds_plain s : forall t, wf t -> ~ In 27 s ->
  wf (feeds t s) /\ quiet t s /\ same_dims t (feeds t s).
Proof using.
  induction s as [|c s IH]; intros t Hwf Hin; [split; [|split;[|split]]; cbn; auto|].
  destruct (feed_plain c t Hwf) as (A & B & C & D); [intros ->; apply Hin; left; auto|].
  destruct (IH _ A) as (A' & B' & C' & D'); [intros H; apply Hin; right; auto|].
  rewrite feeds_cons. split; auto. split; [split; auto|]. unfold same_dims; split; congruence.
Qed.

(* ---------- the body of a non-private control sequence ---------- *)
Definition body_char (c : Z) : bool := is_digit c || (c =? 59) || (c =? 45) || (c =? 32).

Lemma feeds_body bs : forall t done cur,
  pst t = Csi done cur false -> forallb body_char bs = true ->
  quiet t bs /\ exists done' cur', feeds t bs = set_pst t (Csi done' cur' false).
Proof using.
  induction bs as [|c bs IH]; intros t done cur Hp Hb.
  - split; cbn; auto. exists done, cur. rewrite <- Hp. destruct t; reflexivity.
  - cbn [forallb] in Hb. apply andb_prop in Hb as [Hc Hb].
    assert (HF : exists d' c', feed t c = set_pst t (Csi d' c' false)).
    { unfold TermEmu.feed. rewrite Hp. unfold body_char, is_digit in *.
      destruct ((48 <=? c) && (c <=? 57)) eqn:E1; [eauto|].
      destruct (c =? 59) eqn:E2; [eauto|].
      replace (c =? 63) with false by lia.
      replace ((64 <=? c) && (c <=? 126)) with false by lia.
      exists done, cur. rewrite <- Hp. destruct t; reflexivity. }
    destruct HF as (d' & c' & HF). rewrite feeds_cons. cbn [quiet]. rewrite HF.
    destruct (IH (set_pst t (Csi d' c' false)) d' c' eq_refl Hb) as (Q & d2 & c2 & E).
    split; [split; auto|]. exists d2, c2. rewrite E. reflexivity.
Qed.

Lemma feeds_ctl t bs f : pst t = Ground -> forallb body_char bs = true -> 64 <= f <= 126 ->
  quiet t (27 :: 91 :: bs ++ [f]) /\
  exists ps, feeds t (27 :: 91 :: bs ++ [f]) = csi f ps false t.
Proof using.
  intros Hp Hb Hf.
  assert (H1 : feed t 27 = set_pst t Esc) by (unfold TermEmu.feed; rewrite Hp; reflexivity).
  assert (H2 : feed (set_pst t Esc) 91 = set_pst t (Csi [] 0 false)) by reflexivity.
  rewrite !feeds_cons. cbn [quiet]. rewrite H1, H2.
  destruct (feeds_body bs (set_pst t (Csi [] 0 false)) [] 0 eq_refl Hb) as (Q & d & c & E).
  assert (HF : feed (set_pst t (Csi d c false)) f = csi f (rev (c :: d)) false t).
  { unfold TermEmu.feed. cbn [pst set_pst]. replace (is_digit f) with false by (unfold is_digit; lia).
    replace (f =? 59) with false by lia. replace (f =? 63) with false by lia.
    replace ((64 <=? f) && (f <=? 126)) with true by lia.
    f_equal. destruct t; cbn in *; subst; reflexivity. }
  assert (HA : forall ps, alt (csi f ps false t) = alt t).
  { intros ps. unfold csi, erase_where.
    repeat match goal with |- context [if ?b then _ else _] => destruct b end; reflexivity. }
  split.
  - split; [reflexivity|]. split; [reflexivity|]. apply quiet_app; auto.
    rewrite E. cbn [quiet set_pst]. 
    change (set_pst (set_pst t (Csi [] 0 false)) (Csi d c false)) with (set_pst t (Csi d c false)).
    rewrite HF, HA. split; auto.
  - exists (rev (c :: d)). rewrite feeds_app, E.
    change (set_pst (set_pst t (Csi [] 0 false)) (Csi d c false)) with (set_pst t (Csi d c false)).
    exact HF.
Qed.

Lemma csi_wf f ps t : wf t -> wf (csi f ps false t) /\ same_dims t (csi f ps false t).
Proof using.
  clear.
  intros [Hp Hx Hy [Hs1 Hs2]]. unfold csi, erase_where, clampZ.
  repeat match goal with |- context [if ?b then _ else _] => destruct b end;
    (split; [constructor; cbn; auto; lia | split; reflexivity]).
Qed.

Lemma body_dec n : forallb body_char (dec n) = true.
Proof using.
  clear.
  assert (HD : forall l, forallb is_digit l = true -> forallb body_char l = true).
  { intros l H. apply forallb_forall. intros x Hx. rewrite forallb_forall in H.
    unfold body_char. rewrite H; auto. }
  destruct (Z_lt_le_dec n 0) as [H|H].
  - unfold dec. replace (n <? 0) with true by lia. cbn [forallb].
    destruct (dec_spec (- n)) as (_ & A & _); [lia|]. unfold dec in A.
    replace (- n <? 0) with false in A by lia. rewrite HD; auto.
  - destruct (dec_spec n H) as (_ & A & _). auto.
Qed.

(** Every write of a plain call keeps the screen well formed and the alternate-screen flag. *)
Definition good_write (w : list Z) : Prop := forall t, wf t ->
  wf (feeds t w) /\ quiet t w /\ same_dims t (feeds t w).

Lemma good_ctl bs f : forallb body_char bs = true -> 64 <= f <= 126 -> good_write (27 :: 91 :: bs ++ [f]).
Proof using.
  intros Hb Hf t Hwf. destruct (feeds_ctl t bs f (wf_p t Hwf) Hb Hf) as (Q & ps & E).
  rewrite E. destruct (csi_wf f ps t Hwf). auto.
Qed.

Lemma good_app a b : good_write a -> good_write b -> good_write (a ++ b).
Proof using.
  intros Ha Hb t Hwf. destruct (Ha t Hwf) as (A & B & C & D).
  destruct (Hb _ A) as (A' & B' & C' & D'). rewrite feeds_app. split; auto.
  split; [apply quiet_app; auto|]. split; congruence.
Qed.

Lemma good_cr : good_write [13].
Proof using.
  intros t [Hp Hx Hy Hs]. cbn [TermEmu.feeds fold_left quiet]. rewrite f_cr by auto.
  repeat split; cbn; auto; lia.
Qed.

Lemma good_set_pos x y : good_write (set_pos_code x y).
Proof using.
  unfold set_pos_code.
  replace (27 :: 91 :: dec (y + 1) ++ 59 :: dec (x + 1) ++ [72])
    with (27 :: 91 :: (dec (y + 1) ++ 59 :: dec (x + 1)) ++ [72]) by (rewrite <- app_assoc; reflexivity).
  apply good_ctl; [|lia]. rewrite forallb_app, body_dec. cbn [forallb]. rewrite body_dec. reflexivity.
Qed.

Lemma good_writes c ws : plain_call c -> writes c = Some ws -> Forall good_write ws.
Proof using.
  intros Hpl Hw.
  assert (HM : forall n f, 64 <= f <= 126 -> Forall good_write (move_code n f)).
  { intros n f Hf. unfold move_code. destruct (n <=? 0); constructor; auto.
    apply good_ctl; auto. apply body_dec. }
  assert (HV : forall v, good_write [27; 91; 63; 50; 53; v] \/ v <> 104 /\ v <> 108).
  { intros v. destruct (Z.eq_dec v 104) as [ -> |]; [|destruct (Z.eq_dec v 108) as [ -> |]].
    - left. intros t [Hp Hx Hy Hs]. rewrite f_show by auto. split; [constructor; auto|]. split; [|split; reflexivity].
      destruct t; cbn in Hp; subst; cbn; repeat split; reflexivity.
    - left. intros t [Hp Hx Hy Hs]. rewrite f_hide by auto. split; [constructor; auto|]. split; [|split; reflexivity].
      destruct t; cbn in Hp; subst; cbn; repeat split; reflexivity.
    - right; auto. }
  destruct c; cbn [writes plain_call] in *; try discriminate;
    try (injection Hw as <-).
  all: try (apply HM; lia).
  - (constructor; [|constructor]). apply good_set_pos.
  - (constructor; [|constructor]). apply (good_ctl [] 115); auto; lia.
  - (constructor; [|constructor]). apply (good_ctl [] 117); auto; lia.
  - (constructor; [|constructor]). destruct (HV 108); auto. lia.
  - (constructor; [|constructor]). destruct (HV 104); auto. lia.
  - destruct (style_code s) as [b|] eqn:E; [|discriminate]. injection Hw as <-. constructor; [|constructor].
    unfold style_code in E. destruct (s =? 0); [|destruct (s =? 1); [|destruct (s =? 2); [|discriminate]]];
    injection E as <-.
    + apply (good_ctl [50; 32] 113); auto; lia.
    + apply (good_ctl [52; 32] 113); auto; lia.
    + apply (good_ctl [54; 32] 113); auto; lia.
  - (constructor; [|constructor]). apply (good_app [27; 91; 50; 74] [27; 91; 72]).
    + apply (good_ctl [50] 74); auto; lia.
    + apply (good_ctl [] 72); auto; lia.
  - (constructor; [|constructor]). apply (good_app [13] [27; 91; 50; 75] good_cr).
    apply (good_ctl [50] 75); auto; lia.
  - (constructor; [|constructor]). apply (good_ctl [] 74); auto; lia.
  - unfold clear_lines_code. destruct (n <=? 0); [constructor|].
    destruct (n =? 1); (constructor; [|constructor]).
    + apply (good_app [13] [27; 91; 74] good_cr). apply (good_ctl [] 74); auto; lia.
    + replace (27 :: 91 :: dec (n - 1) ++ [65; 13; 27; 91; 74])
        with ((27 :: 91 :: dec (n - 1) ++ [65]) ++ [13] ++ [27; 91; 74]) by (cbn [app]; rewrite <- app_assoc; reflexivity).
      apply good_app; [apply good_ctl; [apply body_dec|lia]|].
      apply good_app; [apply good_cr|]. apply (good_ctl [] 74); auto; lia.
  - (constructor; [|constructor]). intros t Hwf. apply feeds_plain; auto.
  - constructor; [apply good_set_pos|]. (constructor; [|constructor]). intros t Hwf. apply feeds_plain; auto.
Qed.

(* ---------- whole executions ---------- *)
Notation do_writes := (do_writes cw T).
Notation do_call := (do_call cw T mkraw).
Notation do_calls := (do_calls cw T mkraw).
Notation ansi := (ansi T).
Notation Ansi := (Ansi T).

Lemma do_writes_good ws : Forall good_write ws -> forall o d ok o' d', wf (scr T d) ->
  do_writes ws o d = (ok, o', d') ->
  wf (scr T d') /\ alt (scr T d') = alt (scr T d) /\ same_dims (scr T d) (scr T d') /\
  back T d' = back T d /\ tty T d' = tty T d.
Proof using.
  induction 1 as [|w ws Hg _ IH]; intros o d ok o' d' Hwf E; cbn [TmModel.do_writes] in E.
  - injection E as <- <- <-. repeat split; auto; apply Hwf.
  - destruct (ask o) as [b o1]. destruct b.
    + destruct d as [t bk y]. destruct (Hg t Hwf) as (A & B & C & D).
      rewrite dfeeds_quiet in E by auto.
      apply IH in E; auto. cbn [scr back tty] in *. destruct E as (E1 & E2 & (E3 & E4) & E5 & E6).
      split; auto. split; [rewrite E2; apply quiet_alt; auto|]. split; [split; congruence|]. auto.
    + injection E as <- <- <-. repeat split; auto; apply Hwf.
Qed.

Lemma d_alt_on t bk y : wf t -> alt t = false ->
  exists b, dfeeds (Dev t bk y) alt_on_code = Dev (erase_where (set_alt t true) (fun _ _ => true)) (Some b) y
            /\ same_view b t /\ tw b = tw t /\ th b = th t.
Proof using.
  intros [Hp Hx Hy Hs] Ha. destruct t; cbn in Hp, Ha; subst. eexists. split; [reflexivity|].
  repeat split; reflexivity.
Qed.

Lemma d_alt_off t b y : wf t -> alt t = true ->
  dfeeds (Dev t (Some b) y) alt_off_code =
  Dev (set_cur (set_grid (set_alt t false) (grid b)) (cx b) (cy b) (pend b)) None y.
Proof using.
  intros [Hp Hx Hy Hs] Ha. destruct t; cbn in Hp, Ha; subst. reflexivity.
Qed.

Record inv (w h : Z) (tio : T) (a : ansi) (d : dev) : Prop := Inv {
  i_wf : wf (scr T d); i_w : tw (scr T d) = w; i_h : th (scr T d) = h;
  i_alt : alt (scr T d) = inAlt T a;
  i_back : inAlt T a = true -> exists b, back T d = Some b /\ 0 <= cx b < w /\ 0 <= cy b < h;
  i_tty : tty T d = (if inRaw T a then mkraw tio else tio);
  i_orig : orig T a = (if inRaw T a then Some tio else None) }.

Lemma inv_step w h tio c o a d ok o' a' d' :
  inv w h tio a d -> plain_call c -> do_call c o a d = (ok, o', a', d') -> inv w h tio a' d'.
Proof using.
  intros [Iwf Iw Ih Ia Ib It Io] Hpl E.
  assert (HG : forall ws, writes c = Some ws ->
     (let '(ok, o, d) := do_writes ws o d in (ok, o, a, d)) = (ok, o', a', d') -> inv w h tio a' d').
  { intros ws Hw E'. destruct (do_writes ws o d) as [[k o2] d2] eqn:Ed.
    injection E' as <- <- <- <-.
    destruct (do_writes_good ws (good_writes c ws Hpl Hw) _ _ _ _ _ Iwf Ed) as (A & B & (C & D) & F & G).
    constructor; auto; try congruence. intros H. rewrite F. auto. }
  assert (HN : writes c = None -> (false, o, a, d) = (ok, o', a', d') -> inv w h tio a' d').
  { intros _ E'. injection E' as <- <- <- <-. constructor; auto. }
  destruct c; cbn [TmModel.do_call] in E;
    try (destruct (writes _) as [ws|] eqn:Ew in E; [exact (HG ws Ew E)|exact (HN Ew E)]).
  - (* EnterAlt *)
    destruct (inAlt T a) eqn:Ea; [injection E as <- <- <- <-; constructor; auto; congruence|].
    cbn [TmModel.do_writes] in E. destruct (ask o) as [[|] o1].
    + destruct d as [t bk y]. cbn [scr back tty] in *.
      destruct (d_alt_on t bk y Iwf) as (b & Eb & (S1 & S2 & S3 & S4) & S5 & S6); [congruence|].
      rewrite Eb in E. injection E as <- <- <- <-.
      destruct Iwf as [Hp Hx Hy Hs].
      constructor; cbn [scr back tty inAlt inRaw orig]; auto; try congruence.
      * constructor; auto.
      * intros _. exists b. split; auto. split; congruence.
    + injection E as <- <- <- <-. constructor; auto; congruence.
  - (* ExitAlt *)
    destruct (inAlt T a) eqn:Ea; cbn [negb] in E; [|injection E as <- <- <- <-; constructor; auto; congruence].
    cbn [TmModel.do_writes] in E. destruct (ask o) as [[|] o1].
    + destruct d as [t bk y]. cbn [scr back tty] in *. destruct (Ib eq_refl) as (b & Hb & B1 & B2).
      subst bk. rewrite d_alt_off in E by (auto; congruence). injection E as <- <- <- <-.
      destruct Iwf as [Hp Hx Hy Hs].
      constructor; cbn [scr back tty inAlt inRaw orig]; auto; try congruence.
      constructor; auto; cbn; lia.
    + injection E as <- <- <- <-. constructor; auto; congruence.
  - (* EnterRaw *)
    destruct (inRaw T a) eqn:Ea; [injection E as <- <- <- <-; constructor; auto; rewrite Ea; auto|].
    destruct (ask o) as [[|] o1]; injection E as <- <- <- <-.
    + constructor; cbn [scr back tty inAlt inRaw orig]; auto; congruence.
    + constructor; auto; rewrite Ea; auto.
  - (* ExitRaw *)
    destruct (inRaw T a) eqn:Ea; cbn [negb] in E; [|injection E as <- <- <- <-; constructor; auto; rewrite Ea; auto].
    rewrite Io in E. destruct (ask o) as [[|] o1]; injection E as <- <- <- <-.
    + constructor; cbn [scr back tty inAlt inRaw orig]; auto; congruence.
    + constructor; auto; rewrite Ea; auto.
Qed.

Lemma inv_run w h tio cs : forall o a d oks o' a' d',
  inv w h tio a d -> Forall plain_call cs -> do_calls cs o a d = (oks, o', a', d') -> inv w h tio a' d'.
Proof using.
  induction cs as [|c cs IH]; intros o a d oks o' a' d' I Hp E; cbn [TmModel.do_calls] in E.
  - injection E as <- <- <- <-. auto.
  - inversion_clear Hp as [|? ? H1 H2].
    destruct (do_call c o a d) as [[[k o1] a1] d1] eqn:E1.
    destruct (do_calls cs o1 a1 d1) as [[[ks o2] a2] d2] eqn:E2. injection E as <- <- <- <-.
    eapply IH; [|exact H2|exact E2]. eapply inv_step; eauto.
Qed.

(** The alternate screen keeps what it put aside until it is left. *)
Lemma back_step w h tio c o a d ok o' a' d' :
  inv w h tio a d -> plain_call c -> inAlt T a = true -> c <> ExitAltScreen ->
  do_call c o a d = (ok, o', a', d') -> back T d' = back T d /\ inAlt T a' = true.
Proof using.
  intros I Hpl Ha Hc E. assert (Iwf := i_wf _ _ _ _ _ I).
  assert (HG : forall ws, writes c = Some ws ->
     (let '(ok, o, d) := do_writes ws o d in (ok, o, a, d)) = (ok, o', a', d') ->
     back T d' = back T d /\ inAlt T a' = true).
  { intros ws Hw E'. destruct (do_writes ws o d) as [[k o2] d2] eqn:Ed.
    injection E' as <- <- <- <-.
    destruct (do_writes_good ws (good_writes c ws Hpl Hw) _ _ _ _ _ Iwf Ed) as (A & B & C & F & G). auto. }
  assert (HN : writes c = None -> (false, o, a, d) = (ok, o', a', d') ->
     back T d' = back T d /\ inAlt T a' = true).
  { intros _ E'. injection E' as <- <- <- <-. auto. }
  destruct c; cbn [TmModel.do_call] in E;
    try (destruct (writes _) as [ws|] eqn:Ew in E; [exact (HG ws Ew E)|exact (HN Ew E)]).
  - rewrite Ha in E. injection E as <- <- <- <-. auto.
  - congruence.
  - destruct (inRaw T a); [injection E as <- <- <- <-; auto|].
    destruct (ask o) as [[|] o1]; injection E as <- <- <- <-; auto.
  - destruct (inRaw T a); cbn [negb] in E; [|injection E as <- <- <- <-; auto].
    destruct (orig T a); [|injection E as <- <- <- <-; auto].
    destruct (ask o) as [[|] o1]; injection E as <- <- <- <-; auto.
Qed.

Lemma back_run w h tio cs : forall o a d oks o' a' d',
  inv w h tio a d -> Forall plain_call cs -> ~ In ExitAltScreen cs -> inAlt T a = true ->
  do_calls cs o a d = (oks, o', a', d') -> back T d' = back T d /\ inAlt T a' = true.
Proof using.
  induction cs as [|c cs IH]; intros o a d oks o' a' d' I Hp Hn Ha E; cbn [TmModel.do_calls] in E.
  - injection E as <- <- <- <-. auto.
  - inversion_clear Hp as [|? ? H1 H2].
    destruct (do_call c o a d) as [[[k o1] a1] d1] eqn:E1.
    destruct (do_calls cs o1 a1 d1) as [[[ks o2] a2] d2] eqn:E2. injection E as <- <- <- <-.
    assert (Hc : c <> ExitAltScreen) by (intros ->; apply Hn; left; auto).
    destruct (back_step _ _ _ _ _ _ _ _ _ _ _ I H1 Ha Hc E1) as (B1 & B2).
    assert (Hn2 : ~ In ExitAltScreen cs) by (intros H; apply Hn; right; auto).
    destruct (IH _ _ _ _ _ _ _ (inv_step _ _ _ _ _ _ _ _ _ _ _ I H1 E1) H2 Hn2 B2 E2) as (C1 & C2).
    split; auto. congruence.
Qed.

(* ---------- the cursor's visibility ---------- *)
Lemma vis_ctl t bs f : pst t = Ground -> forallb body_char bs = true -> 64 <= f <= 126 ->
  curvis (feeds t (27 :: 91 :: bs ++ [f])) = curvis t.
Proof using.
  intros Hp Hb Hf. destruct (feeds_ctl t bs f Hp Hb Hf) as (_ & ps & ->).
  unfold csi, erase_where. repeat match goal with |- context [if ?b then _ else _] => destruct b end; reflexivity.
Qed.

Lemma vis_plain s : forall t, wf t -> ~ In 27 s -> curvis (feeds t s) = curvis t.
Proof using.
  induction s as [|c s IH]; intros t Hwf Hin; auto.
  assert (Hc : c <> 27) by (intros ->; apply Hin; left; auto).
  destruct (feed_plain c t Hwf Hc) as (A & _).
  rewrite feeds_cons, IH; auto; [|intros H; apply Hin; right; auto].
  unfold TermEmu.feed. rewrite (wf_p t Hwf). replace (c =? 27) with false by lia.
  unfold put, line_feed.
  repeat match goal with |- context [if ?b then _ else _] => destruct b end; reflexivity.
Qed.

Definition same_vis (w : list Z) : Prop := forall t, wf t -> curvis (feeds t w) = curvis t.

Lemma vis_writes c ws : plain_call c -> c <> HideCursor -> c <> ShowCursor ->
  writes c = Some ws -> Forall same_vis ws.
Proof using.
  intros Hpl N1 N2 Hw.
  assert (HC : forall bs f, forallb body_char bs = true -> 64 <= f <= 126 -> same_vis (27 :: 91 :: bs ++ [f])).
  { intros bs f Hb Hf t Ht. apply vis_ctl; auto. apply Ht. }
  assert (HR : same_vis [13]).
  { intros t Ht. cbn [TermEmu.feeds fold_left]. rewrite f_cr by apply Ht. reflexivity. }
  assert (HA : forall a b, good_write a -> same_vis a -> same_vis b -> same_vis (a ++ b)).
  { intros a b Hg Ha Hb t Ht. rewrite feeds_app, Hb, Ha; auto. apply Hg; auto. }
  assert (HP : forall x y, same_vis (set_pos_code x y)).
  { intros x y. unfold set_pos_code.
    replace (27 :: 91 :: dec (y + 1) ++ 59 :: dec (x + 1) ++ [72])
      with (27 :: 91 :: (dec (y + 1) ++ 59 :: dec (x + 1)) ++ [72]) by (rewrite <- app_assoc; reflexivity).
    apply HC; [|lia]. rewrite forallb_app, body_dec. cbn [forallb]. rewrite body_dec. reflexivity. }
  assert (HM : forall n f, 64 <= f <= 126 -> Forall same_vis (move_code n f)).
  { intros n f Hf. unfold move_code. destruct (n <=? 0); constructor; auto.
    apply HC; auto. apply body_dec. }
  destruct c; cbn [writes plain_call] in *; try discriminate; try (injection Hw as <-); try congruence.
  all: try (apply HM; lia).
  - (constructor; [|constructor]). apply HP.
  - (constructor; [|constructor]). apply (HC [] 115); auto; lia.
  - (constructor; [|constructor]). apply (HC [] 117); auto; lia.
  - destruct (style_code s) as [b|] eqn:E; [|discriminate]. injection Hw as <-. constructor; [|constructor].
    intros t Ht. rewrite (f_style t s b); auto. apply Ht.
  - (constructor; [|constructor]). apply (HA [27; 91; 50; 74] [27; 91; 72]).
    + apply (good_ctl [50] 74); auto; lia.
    + apply (HC [50] 74); auto; lia.
    + apply (HC [] 72); auto; lia.
  - (constructor; [|constructor]). apply (HA [13] [27; 91; 50; 75] good_cr HR).
    apply (HC [50] 75); auto; lia.
  - (constructor; [|constructor]). apply (HC [] 74); auto; lia.
  - unfold clear_lines_code. destruct (n <=? 0); [constructor|].
    destruct (n =? 1); (constructor; [|constructor]).
    + apply (HA [13] [27; 91; 74] good_cr HR). apply (HC [] 74); auto; lia.
    + replace (27 :: 91 :: dec (n - 1) ++ [65; 13; 27; 91; 74])
        with ((27 :: 91 :: dec (n - 1) ++ [65]) ++ [13] ++ [27; 91; 74]) by (cbn [app]; rewrite <- app_assoc; reflexivity).
      apply HA; [apply good_ctl; [apply body_dec|lia]|apply HC; [apply body_dec|lia]|].
      apply HA; auto; [apply good_cr|]. apply (HC [] 74); auto; lia.
  - (constructor; [|constructor]). intros t Hwf. apply vis_plain; auto.
  - constructor; [apply HP|]. (constructor; [|constructor]). intros t Hwf. apply vis_plain; auto.
Qed.

Lemma do_writes_vis ws : Forall good_write ws -> Forall same_vis ws -> forall o d ok o' d', wf (scr T d) ->
  do_writes ws o d = (ok, o', d') -> curvis (scr T d') = curvis (scr T d).
Proof using.
  induction 1 as [|w ws Hg _ IH]; intros Hv o d ok o' d' Hwf E; cbn [TmModel.do_writes] in E.
  - injection E as <- <- <-. auto.
  - inversion_clear Hv as [|? ? V1 V2]. destruct (ask o) as [b o1]. destruct b.
    + destruct d as [t bk y]. destruct (Hg t Hwf) as (A & B & C & D).
      rewrite dfeeds_quiet in E by auto.
      apply IH in E; auto. rewrite E. cbn [scr]. auto.
    + injection E as <- <- <-. auto.
Qed.

Lemma do_writes1 w o d : do_writes [w] o d =
  (let (ok, o) := ask o in if ok then (true, o, dfeeds d w) else (false, o, d)).
Proof using. reflexivity. Qed.

Lemma vis_step w h tio c o a d ok o' a' d' :
  inv w h tio a d -> plain_call c -> do_call c o a d = (ok, o', a', d') ->
  curvis (scr T d') = match c with
                      | HideCursor => if ok then false else curvis (scr T d)
                      | ShowCursor => if ok then true else curvis (scr T d)
                      | _ => curvis (scr T d)
                      end.
Proof using.
  intros I Hpl E. assert (Iwf := i_wf _ _ _ _ _ I).
  assert (HG : forall ws, c <> HideCursor -> c <> ShowCursor -> writes c = Some ws ->
     (let '(ok, o, d) := do_writes ws o d in (ok, o, a, d)) = (ok, o', a', d') ->
     curvis (scr T d') = curvis (scr T d)).
  { intros ws N1 N2 Hw E'. destruct (do_writes ws o d) as [[k o2] d2] eqn:Ed.
    injection E' as <- <- <- <-.
    eapply do_writes_vis; [apply (good_writes c)|apply (vis_writes c)|..]; eauto. }
  assert (HN : writes c = None -> (false, o, a, d) = (ok, o', a', d') ->
     curvis (scr T d') = curvis (scr T d)).
  { intros _ E'. injection E' as <- <- <- <-. auto. }
  destruct c; cbn [TmModel.do_call] in E;
    try (destruct (writes _) as [ws|] eqn:Ew in E; [refine (HG ws _ _ Ew E); discriminate|exact (HN Ew E)]).
  - cbn [writes] in E. rewrite do_writes1 in E. destruct d as [t bk y]. cbn [scr] in *.
    assert (G := good_writes HideCursor _ Logic.I eq_refl). inversion_clear G as [|? ? G1 _].
    destruct (G1 t Iwf) as (_ & Q & _). rewrite (dfeeds_quiet _ t bk y Q) in E.
    rewrite f_hide in E by apply Iwf.
    destruct (ask o) as [[|] o1]; injection E as <- <- <- <-; reflexivity.
  - cbn [writes] in E. rewrite do_writes1 in E. destruct d as [t bk y]. cbn [scr] in *.
    assert (G := good_writes ShowCursor _ Logic.I eq_refl). inversion_clear G as [|? ? G1 _].
    destruct (G1 t Iwf) as (_ & Q & _). rewrite (dfeeds_quiet _ t bk y Q) in E.
    rewrite f_show in E by apply Iwf.
    destruct (ask o) as [[|] o1]; injection E as <- <- <- <-; reflexivity.
  - destruct (inAlt T a) eqn:Ea; [injection E as <- <- <- <-; auto|].
    cbn [TmModel.do_writes] in E. destruct (ask o) as [[|] o1]; [|injection E as <- <- <- <-; auto].
    destruct d as [t bk y]. cbn [scr] in *.
    destruct (d_alt_on t bk y Iwf) as (b & Eb & _); [rewrite <- Ea; apply I|].
    rewrite Eb in E. injection E as <- <- <- <-. reflexivity.
  - destruct (inAlt T a) eqn:Ea; cbn [negb] in E; [|injection E as <- <- <- <-; auto].
    cbn [TmModel.do_writes] in E. destruct (ask o) as [[|] o1]; [|injection E as <- <- <- <-; auto].
    destruct (i_back _ _ _ _ _ I Ea) as (b & Hb & _).
    destruct d as [t bk y]. cbn [scr back] in *. subst bk.
    rewrite d_alt_off in E; [|auto|rewrite <- Ea; apply I]. injection E as <- <- <- <-. reflexivity.
  - destruct (inRaw T a); [injection E as <- <- <- <-; auto|].
    destruct (ask o) as [[|] o1]; injection E as <- <- <- <-; auto.
  - destruct (inRaw T a); cbn [negb] in E; [|injection E as <- <- <- <-; auto].
    destruct (orig T a); [|injection E as <- <- <- <-; auto].
    destruct (ask o) as [[|] o1]; injection E as <- <- <- <-; auto.
Qed.
(* ---------- the remembered cursor position ---------- *)
Lemma sv_ctl t bs f : pst t = Ground -> forallb body_char bs = true -> 64 <= f <= 126 -> f <> 115 ->
  saved (feeds t (27 :: 91 :: bs ++ [f])) = saved t.
Proof using.
  intros Hp Hb Hf Hf'. destruct (feeds_ctl t bs f Hp Hb Hf) as (_ & ps & ->).
  unfold csi, erase_where. replace (f =? 115) with false by lia. repeat match goal with |- context [if ?b then _ else _] => destruct b end; reflexivity.
Qed.

Lemma sv_plain s : forall t, wf t -> ~ In 27 s -> saved (feeds t s) = saved t.
Proof using.
  induction s as [|c s IH]; intros t Hwf Hin; auto.
  assert (Hc : c <> 27) by (intros ->; apply Hin; left; auto).
  destruct (feed_plain c t Hwf Hc) as (A & _).
  rewrite feeds_cons, IH; auto; [|intros H; apply Hin; right; auto].
  unfold TermEmu.feed. rewrite (wf_p t Hwf). replace (c =? 27) with false by lia.
  unfold put, line_feed.
  repeat match goal with |- context [if ?b then _ else _] => destruct b end; reflexivity.
Qed.

Definition same_sv (w : list Z) : Prop := forall t, wf t -> saved (feeds t w) = saved t.

Lemma sv_writes c ws : plain_call c -> c <> SaveCursorPosition ->
  writes c = Some ws -> Forall same_sv ws.
Proof using.
  intros Hpl N1 Hw.
  assert (HC : forall bs f, forallb body_char bs = true -> 64 <= f <= 126 -> f <> 115 -> same_sv (27 :: 91 :: bs ++ [f])).
  { intros bs f Hb Hf Hf' t Ht. apply sv_ctl; auto. apply Ht. }
  assert (HR : same_sv [13]).
  { intros t Ht. cbn [TermEmu.feeds fold_left]. rewrite f_cr by apply Ht. reflexivity. }
  assert (HA : forall a b, good_write a -> same_sv a -> same_sv b -> same_sv (a ++ b)).
  { intros a b Hg Ha Hb t Ht. rewrite feeds_app, Hb, Ha; auto. apply Hg; auto. }
  assert (HP : forall x y, same_sv (set_pos_code x y)).
  { intros x y. unfold set_pos_code.
    replace (27 :: 91 :: dec (y + 1) ++ 59 :: dec (x + 1) ++ [72])
      with (27 :: 91 :: (dec (y + 1) ++ 59 :: dec (x + 1)) ++ [72]) by (rewrite <- app_assoc; reflexivity).
    apply HC; [|lia|lia]. rewrite forallb_app, body_dec. cbn [forallb]. rewrite body_dec. reflexivity. }
  assert (HM : forall n f, 64 <= f <= 126 -> f <> 115 -> Forall same_sv (move_code n f)).
  { intros n f Hf Hf'. unfold move_code. destruct (n <=? 0); constructor; auto.
    apply HC; auto. apply body_dec. }
  destruct c; cbn [writes plain_call] in *; try discriminate; try (injection Hw as <-); try congruence.
  all: try (apply HM; lia).
  - (constructor; [|constructor]). apply HP.
  - (constructor; [|constructor]). apply (HC [] 117); auto; lia.
  - (constructor; [|constructor]). intros t Ht. rewrite f_hide by apply Ht. reflexivity.
  - (constructor; [|constructor]). intros t Ht. rewrite f_show by apply Ht. reflexivity.
  - destruct (style_code s) as [b|] eqn:E; [|discriminate]. injection Hw as <-. constructor; [|constructor].
    intros t Ht. rewrite (f_style t s b); auto. apply Ht.
  - (constructor; [|constructor]). apply (HA [27; 91; 50; 74] [27; 91; 72]).
    + apply (good_ctl [50] 74); auto; lia.
    + apply (HC [50] 74); auto; lia.
    + apply (HC [] 72); auto; lia.
  - (constructor; [|constructor]). apply (HA [13] [27; 91; 50; 75] good_cr HR).
    apply (HC [50] 75); auto; lia.
  - (constructor; [|constructor]). apply (HC [] 74); auto; lia.
  - unfold clear_lines_code. destruct (n <=? 0); [constructor|].
    destruct (n =? 1); (constructor; [|constructor]).
    + apply (HA [13] [27; 91; 74] good_cr HR). apply (HC [] 74); auto; lia.
    + replace (27 :: 91 :: dec (n - 1) ++ [65; 13; 27; 91; 74])
        with ((27 :: 91 :: dec (n - 1) ++ [65]) ++ [13] ++ [27; 91; 74]) by (cbn [app]; rewrite <- app_assoc; reflexivity).
      apply HA; [apply good_ctl; [apply body_dec|lia]|apply HC; [apply body_dec|lia|lia]|].
      apply HA; auto; [apply good_cr|]. apply (HC [] 74); auto; lia.
  - (constructor; [|constructor]). intros t Hwf. apply sv_plain; auto.
  - constructor; [apply HP|]. (constructor; [|constructor]). intros t Hwf. apply sv_plain; auto.
Qed.

Lemma do_writes_sv ws : Forall good_write ws -> Forall same_sv ws -> forall o d ok o' d', wf (scr T d) ->
  do_writes ws o d = (ok, o', d') -> saved (scr T d') = saved (scr T d).
Proof using.
  induction 1 as [|w ws Hg _ IH]; intros Hv o d ok o' d' Hwf E; cbn [TmModel.do_writes] in E.
  - injection E as <- <- <-. auto.
  - inversion_clear Hv as [|? ? V1 V2]. destruct (ask o) as [b o1]. destruct b.
    + destruct d as [t bk y]. destruct (Hg t Hwf) as (A & B & C & D).
      rewrite dfeeds_quiet in E by auto.
      apply IH in E; auto. rewrite E. cbn [scr]. auto.
    + injection E as <- <- <-. auto.
Qed.


Lemma sv_step w h tio c o a d ok o' a' d' :
  inv w h tio a d -> plain_call c -> c <> SaveCursorPosition -> do_call c o a d = (ok, o', a', d') ->
  saved (scr T d') = saved (scr T d).
Proof using.
  intros I Hpl N1 E. assert (Iwf := i_wf _ _ _ _ _ I).
  assert (HG : forall ws, writes c = Some ws ->
     (let '(ok, o, d) := do_writes ws o d in (ok, o, a, d)) = (ok, o', a', d') ->
     saved (scr T d') = saved (scr T d)).
  { intros ws Hw E'. destruct (do_writes ws o d) as [[k o2] d2] eqn:Ed.
    injection E' as <- <- <- <-.
    eapply do_writes_sv; [apply (good_writes c)|apply (sv_writes c)|..]; eauto. }
  assert (HN : writes c = None -> (false, o, a, d) = (ok, o', a', d') ->
     saved (scr T d') = saved (scr T d)).
  { intros _ E'. injection E' as <- <- <- <-. auto. }
  destruct c; cbn [TmModel.do_call] in E;
    try (destruct (writes _) as [ws|] eqn:Ew in E; [refine (HG ws Ew E)|exact (HN Ew E)]).
  - destruct (inAlt T a) eqn:Ea; [injection E as <- <- <- <-; auto|].
    cbn [TmModel.do_writes] in E. destruct (ask o) as [[|] o1]; [|injection E as <- <- <- <-; auto].
    destruct d as [t bk y]. cbn [scr] in *.
    destruct (d_alt_on t bk y Iwf) as (b & Eb & _); [rewrite <- Ea; apply I|].
    rewrite Eb in E. injection E as <- <- <- <-. reflexivity.
  - destruct (inAlt T a) eqn:Ea; cbn [negb] in E; [|injection E as <- <- <- <-; auto].
    cbn [TmModel.do_writes] in E. destruct (ask o) as [[|] o1]; [|injection E as <- <- <- <-; auto].
    destruct (i_back _ _ _ _ _ I Ea) as (b & Hb & _).
    destruct d as [t bk y]. cbn [scr back] in *. subst bk.
    rewrite d_alt_off in E; [|auto|rewrite <- Ea; apply I]. injection E as <- <- <- <-. reflexivity.
  - destruct (inRaw T a); [injection E as <- <- <- <-; auto|].
    destruct (ask o) as [[|] o1]; injection E as <- <- <- <-; auto.
  - destruct (inRaw T a); cbn [negb] in E; [|injection E as <- <- <- <-; auto].
    destruct (orig T a); [|injection E as <- <- <- <-; auto].
    destruct (ask o) as [[|] o1]; injection E as <- <- <- <-; auto.
Qed.

Lemma sv_run w h tio cs : forall o a d oks o' a' d',
  inv w h tio a d -> Forall plain_call cs -> ~ In SaveCursorPosition cs ->
  do_calls cs o a d = (oks, o', a', d') -> saved (scr T d') = saved (scr T d).
Proof using.
  induction cs as [|c cs IH]; intros o a d oks o' a' d' I Hp Hn E; cbn [TmModel.do_calls] in E.
  - injection E as <- <- <- <-. auto.
  - inversion_clear Hp as [|? ? H1 H2].
    destruct (do_call c o a d) as [[[k o1] a1] d1] eqn:E1.
    destruct (do_calls cs o1 a1 d1) as [[[ks o2] a2] d2] eqn:E2. injection E as <- <- <- <-.
    assert (Hc : c <> SaveCursorPosition) by (intros ->; apply Hn; left; auto).
    assert (Hn2 : ~ In SaveCursorPosition cs) by (intros H; apply Hn; right; auto).
    rewrite (IH _ _ _ _ _ _ _ (inv_step _ _ _ _ _ _ _ _ _ _ _ I H1 E1) H2 Hn2 E2).
    eapply sv_step; eauto.
Qed.

(* ---------- text ---------- *)
Lemma feeds_text s : forall t, wf t -> pend t = false ->
  Forall (fun c => 32 <= c /\ c <> 127 /\ cw c = 1) s ->
  cx t + Z.of_nat (length s) <= tw t ->
  (forall i, 0 <= i < Z.of_nat (length s) -> tkind (grid t (cx t + i) (cy t)) = Single) ->
  let t' := feeds t s in
  cx t' = Z.min (tw t - 1) (cx t + Z.of_nat (length s)) /\ cy t' = cy t /\ tpn t' = tpn t /\
  forall x y, grid t' x y =
    if (y =? cy t) && (cx t <=? x) && (x <? cx t + Z.of_nat (length s))
    then TCell (nth (Z.to_nat (x - cx t)) s 0) (tpn t) Single else grid t x y.
Proof using.
  induction s as [|c s IH]; intros t Hwf Hpd Hs Hl Hk; cbv zeta.
  - cbn [length TermEmu.feeds fold_left]. split; [|split; [|split]]; auto.
    + destruct Hwf as [_ Hx _ _]. lia.
    + intros x y. destruct ((y =? cy t) && (cx t <=? x) && (x <? cx t + Z.of_nat 0)) eqn:E; auto. lia.
  - inversion_clear Hs as [|c0 l0 (C1 & C2 & C3) Hs']. cbn [length] in *.
    assert (Hx := wf_x t Hwf).
    assert (K0 : tkind (grid t (cx t) (cy t)) = Single).
    { specialize (Hk 0 ltac:(lia)). replace (cx t + 0) with (cx t) in Hk by lia. auto. }
    assert (HF := feed_char cw t c (wf_p t Hwf) C1 C2 C3 Hx Hpd K0). cbv zeta in HF.
    destruct (feed_plain c t Hwf) as (W1 & _ & D1 & D2); [lia|].
    rewrite feeds_cons.
    destruct (cx t + 1 <? tw t) eqn:E.
    + destruct (IH (feed t c) W1) as (A & B & C & D); auto.
      { rewrite HF. reflexivity. }
      { rewrite D1, HF. cbn [cx set_cur]. lia. }
      { intros i Hi. rewrite HF. cbn [cx cy grid set_cur set_grid]. unfold gset.
        destruct ((cx t + 1 + i =? cx t) && (cy t =? cy t)); [reflexivity|].
        specialize (Hk (i + 1) ltac:(lia)). replace (cx t + (i + 1)) with (cx t + 1 + i) in Hk by lia. auto. }
      rewrite A, B, C, D1. rewrite HF in *. cbn [cx cy grid set_cur set_grid tpn] in *.
      split; [lia|]. split; auto. split; auto.
      intros x y. rewrite D. unfold gset.
      destruct ((y =? cy t) && (cx t + 1 <=? x) && (x <? cx t + 1 + Z.of_nat (length s))) eqn:E1.
      * replace ((y =? cy t) && (cx t <=? x) && (x <? cx t + Z.of_nat (S (length s)))) with true by lia.
        replace (Z.to_nat (x - cx t)) with (S (Z.to_nat (x - (cx t + 1)))) by lia. reflexivity.
      * destruct ((x =? cx t) && (y =? cy t)) eqn:E2.
        -- replace ((y =? cy t) && (cx t <=? x) && (x <? cx t + Z.of_nat (S (length s)))) with true by lia.
           replace (Z.to_nat (x - cx t)) with O by lia. reflexivity.
        -- replace ((y =? cy t) && (cx t <=? x) && (x <? cx t + Z.of_nat (S (length s)))) with false by lia.
           reflexivity.
    + assert (s = []) by (destruct s; auto; cbn [length] in Hl; lia). subst s.
      cbn [TermEmu.feeds fold_left length]. rewrite HF. cbn [cx cy grid set_cur set_grid tpn].
      split; [lia|]. split; auto. split; auto.
      intros x y. unfold gset. destruct ((x =? cx t) && (y =? cy t)) eqn:E2.
      * replace ((y =? cy t) && (cx t <=? x) && (x <? cx t + Z.of_nat 1)) with true by lia.
        replace (Z.to_nat (x - cx t)) with O by lia. reflexivity.
      * replace ((y =? cy t) && (cx t <=? x) && (x <? cx t + Z.of_nat 1)) with false by lia. reflexivity.
Qed.

Lemma f_set_pos t x y : pst t = Ground -> 0 <= x -> 0 <= y ->
  feeds t (set_pos_code x y) =
  set_cur t (clampZ 0 (tw t - 1) x) (clampZ 0 (th t - 1) y) false.
Proof using.
  intros Hp Hx Hy. unfold set_pos_code.
  replace (27 :: 91 :: dec (y + 1) ++ 59 :: dec (x + 1) ++ [72])
    with (27 :: 91 :: join59 (map dec [y + 1; x + 1]) ++ [72])
    by (cbn [map join59]; rewrite <- app_assoc; reflexivity).
  rewrite feeds_csi; auto; try discriminate; try lia.
  - unfold csi, nthp. cbn [nth Z.eqb Pos.eqb]. f_equal; f_equal; lia.
  - repeat constructor; lia.
Qed.
End P.
