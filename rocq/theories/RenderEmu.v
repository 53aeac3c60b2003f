(** The renderer's output interpreted by the terminal emulator. *)
From Verif Require Import Prelude TermEmu RenderModel RenderSpec RenderProofs.

Section Emu.
Variable cw : Z -> Z.
Notation feeds := (feeds cw).
Notation feed := (feed cw).

Lemma feeds_app t a b : feeds t (a ++ b) = feeds (feeds t a) b.
Proof. apply fold_left_app. Qed.

Lemma feeds_cons t c l : feeds t (c :: l) = feeds (feed t c) l.
Proof. reflexivity. Qed.

Lemma feeds_digits d : forall t done cur priv,
  pst t = Csi done cur priv -> forallb is_digit d = true ->
  feeds t d = set_pst t (Csi done (undec_acc cur d) priv).
Proof.
  induction d as [|c d IH]; intros t done cur priv Hp Hd.
  - cbn. rewrite <- Hp. destruct t; reflexivity.
  - cbn [forallb] in Hd. apply andb_prop in Hd as [Hc Hd].
    rewrite feeds_cons. unfold TermEmu.feed. rewrite Hp, Hc.
    rewrite (IH _ done (cur * 10 + (c - 48)) priv) by auto. reflexivity.
Qed.

Lemma feeds_dec n t done : 0 <= n -> pst t = Csi done 0 false ->
  feeds t (dec n) = set_pst t (Csi done n false).
Proof.
  intros Hn Hp. destruct (dec_spec n Hn) as (_ & Hd & _).
  rewrite (feeds_digits _ _ _ _ _ Hp Hd), dec_undec; auto.
Qed.

(** A complete CSI parameter string. *)
Lemma feeds_params ps : forall t done f,
  pst t = Csi done 0 false -> Forall (fun n => 0 <= n) ps -> ps <> [] ->
  64 <= f <= 126 ->
  feeds t (join59 (map dec ps) ++ [f]) = csi f (rev done ++ ps) false (set_pst t Ground).
Proof.
  induction ps as [|n ps IH]; intros t done f Hp Hf Hne Hfin; [congruence|].
  inversion_clear Hf as [|? ? Hn Hps].
  destruct ps as [|m ps].
  - cbn [map join59]. rewrite feeds_app, (feeds_dec n t done) by auto.
    cbn [TermEmu.feeds fold_left]. unfold TermEmu.feed. cbn [pst set_pst].
    replace (is_digit f) with false by (unfold is_digit; lia).
    replace (f =? 59) with false by lia. replace (f =? 63) with false by lia.
    replace ((64 <=? f) && (f <=? 126)) with true by lia.
    cbn [rev]. reflexivity.
  - change (join59 (map dec (n :: m :: ps))) with (dec n ++ 59 :: join59 (map dec (m :: ps))).
    rewrite <- app_assoc, feeds_app, (feeds_dec n t done) by auto.
    change ((59 :: join59 (map dec (m :: ps))) ++ [f]) with (59 :: (join59 (map dec (m :: ps)) ++ [f])).
    rewrite feeds_cons.
    rewrite (IH _ (n :: done)); auto; try discriminate.
    cbn [rev]. rewrite <- app_assoc. reflexivity.
Qed.

Lemma feeds_csi ps t f : pst t = Ground -> Forall (fun n => 0 <= n) ps -> ps <> [] ->
  64 <= f <= 126 ->
  feeds t (27 :: 91 :: join59 (map dec ps) ++ [f]) = csi f ps false t.
Proof.
  intros Hp Hps Hne Hf. rewrite !feeds_cons.
  rewrite (feeds_params ps _ [] f); auto.
  - f_equal. unfold TermEmu.feed. rewrite Hp. cbn. destruct t; cbn in *; subst; reflexivity.
  - unfold TermEmu.feed. rewrite Hp. reflexivity.
Qed.

Lemma feeds_move t x y : pst t = Ground -> 0 <= x < tw t -> 0 <= y < th t ->
  feeds t (move_cursor_code x y) = set_cur t x y false.
Proof.
  intros Hp Hx Hy.
  change (move_cursor_code x y) with (27 :: 91 :: dec (y + 1) ++ (59 :: dec (x + 1)) ++ [72]).
  rewrite app_assoc. change (dec (y + 1) ++ 59 :: dec (x + 1)) with (join59 (map dec [y + 1; x + 1])).
  rewrite feeds_csi; auto; try discriminate; try lia.
  - unfold csi, nthp. cbn [nth]. cbn [Z.eqb Pos.eqb].
    f_equal; unfold clampZ; lia.
  - repeat constructor; lia.
Qed.

Lemma feeds_clear t : pst t = Ground ->
  feeds t clear_screen_code = erase_where t (fun _ _ => true).
Proof.
  intros Hp. change clear_screen_code with (27 :: 91 :: join59 (map dec [2]) ++ [74]).
  rewrite feeds_csi; auto; try discriminate; try lia. repeat constructor; lia.
Qed.

Lemma feeds_vis t c : pst t = Ground -> c = cursor_hide_code \/ c = cursor_show_code ->
  exists v, feeds t c = set_vis t v.
Proof.
  intros Hp [->| ->]; destruct t; cbn in Hp; subst; eexists; reflexivity.
Qed.

(* ---------- SGR ---------- *)
Definition merge (s : style) (p : pen) : pen :=
  Pen (match fg s with Some c => Some (tcolor_of c) | None => p_fg p end)
      (match bg s with Some c => Some (tcolor_of c) | None => p_bg p end)
      (bold s || p_bold p) (dim s || p_dim p) (italic s || p_italic p)
      (underline s || p_underline p) (blink s || p_blink p) (reverse_ s || p_reverse p)
      (hidden s || p_hidden p) (strike s || p_strike p).

Definition flagp (b : bool) (n : Z) : list Z := if b then [n] else [].
Definition optp (lead : Z) (o : option color) : list Z :=
  match o with None => [] | Some c => [lead; 2; cr c; cg c; cb c] end.
Definition style_params (s : style) : list Z :=
  optp 38 (fg s) ++ optp 48 (bg s) ++
  flagp (bold s) 1 ++ flagp (dim s) 2 ++ flagp (italic s) 3 ++
  flagp (underline s) 4 ++ flagp (blink s) 5 ++ flagp (reverse_ s) 7 ++
  flagp (hidden s) 8 ++ flagp (strike s) 9.

Lemma join59_cons a l : l <> [] -> join59 (a :: l) = a ++ 59 :: join59 l.
Proof. destruct l; [congruence|reflexivity]. Qed.

Lemma join59_app a b : a <> [] -> b <> [] -> join59 (a ++ b) = join59 a ++ 59 :: join59 b.
Proof.
  induction a as [|x a IH]; intros Ha Hb; [congruence|].
  destruct a as [|y a].
  - cbn [app]. rewrite join59_cons by auto. reflexivity.
  - cbn [app]. rewrite (join59_cons x (y :: a ++ b)) by discriminate.
    change (y :: a ++ b) with ((y :: a) ++ b).
    rewrite IH by (auto; discriminate). rewrite (join59_cons x (y :: a)) by discriminate.
    rewrite <- app_assoc. reflexivity.
Qed.

Lemma join59_concat ls : Forall (fun l => l <> []) ls ->
  join59 (map (fun ps => join59 (map dec ps)) ls) = join59 (map dec (concat ls)).
Proof.
  induction ls as [|l ls IH]; intros H; [reflexivity|].
  inversion_clear H as [|? ? Hl Hls]. cbn [map concat].
  destruct ls as [|m ls].
  - cbn. rewrite app_nil_r. reflexivity.
  - rewrite join59_cons by discriminate. rewrite IH by auto.
    rewrite map_app, join59_app.
    + reflexivity.
    + destruct l; [congruence|discriminate].
    + inversion_clear Hls. cbn [concat]. destruct m; [congruence|discriminate].
Qed.

Definition to_list (l : list Z) : list (list Z) := match l with [] => [] | _ => [l] end.

Lemma to_list_concat l : concat (to_list l) = l.
Proof. destruct l; cbn; rewrite ?app_nil_r; reflexivity. Qed.
Lemma to_list_ne l : Forall (fun l => l <> []) (to_list l).
Proof. destruct l; cbn; repeat constructor; discriminate. Qed.

Definition style_groups (s : style) : list (list Z) :=
  to_list (optp 38 (fg s)) ++ to_list (optp 48 (bg s)) ++
  to_list (flagp (bold s) 1) ++ to_list (flagp (dim s) 2) ++ to_list (flagp (italic s) 3) ++
  to_list (flagp (underline s) 4) ++ to_list (flagp (blink s) 5) ++ to_list (flagp (reverse_ s) 7) ++
  to_list (flagp (hidden s) 8) ++ to_list (flagp (strike s) 9).

Lemma style_codes_params s : join59 (style_codes s) = join59 (map dec (style_params s)).
Proof.
  assert (H1 : forall b n, flag_code b n = map (fun ps => join59 (map dec ps)) (to_list (flagp b n))).
  { intros [] n; reflexivity. }
  assert (H2 : forall l o, opt_code l o = map (fun ps => join59 (map dec ps)) (to_list (optp l o))).
  { intros l [c|]; reflexivity. }
  replace (style_codes s) with (map (fun ps => join59 (map dec ps)) (style_groups s)).
  - rewrite join59_concat.
    + f_equal. f_equal. unfold style_groups, style_params.
      rewrite !concat_app, !to_list_concat. reflexivity.
    + unfold style_groups. repeat (apply Forall_app; split); apply to_list_ne.
  - unfold style_groups, style_codes. rewrite !map_app, !H1, !H2. reflexivity.
Qed.

Lemma sgr_fg o ps f b x1 x2 x3 x4 x5 x6 x7 x8 : sgr (optp 38 o ++ ps) (Pen f b x1 x2 x3 x4 x5 x6 x7 x8) =
  sgr ps (Pen (match o with Some c => Some (tcolor_of c) | None => f end) b x1 x2 x3 x4 x5 x6 x7 x8).
Proof. destruct o; reflexivity. Qed.
Lemma sgr_bg o ps f b x1 x2 x3 x4 x5 x6 x7 x8 : sgr (optp 48 o ++ ps) (Pen f b x1 x2 x3 x4 x5 x6 x7 x8) =
  sgr ps (Pen f (match o with Some c => Some (tcolor_of c) | None => b end) x1 x2 x3 x4 x5 x6 x7 x8).
Proof. destruct o; reflexivity. Qed.
Lemma sgr_flag1 q ps f b x1 x2 x3 x4 x5 x6 x7 x8 :
  sgr (flagp q 1 ++ ps) (Pen f b x1 x2 x3 x4 x5 x6 x7 x8) = sgr ps (Pen f b (q || x1) x2 x3 x4 x5 x6 x7 x8).
Proof. destruct q; reflexivity. Qed.
Lemma sgr_flag2 q ps f b x1 x2 x3 x4 x5 x6 x7 x8 :
  sgr (flagp q 2 ++ ps) (Pen f b x1 x2 x3 x4 x5 x6 x7 x8) = sgr ps (Pen f b x1 (q || x2) x3 x4 x5 x6 x7 x8).
Proof. destruct q; reflexivity. Qed.
Lemma sgr_flag3 q ps f b x1 x2 x3 x4 x5 x6 x7 x8 :
  sgr (flagp q 3 ++ ps) (Pen f b x1 x2 x3 x4 x5 x6 x7 x8) = sgr ps (Pen f b x1 x2 (q || x3) x4 x5 x6 x7 x8).
Proof. destruct q; reflexivity. Qed.
Lemma sgr_flag4 q ps f b x1 x2 x3 x4 x5 x6 x7 x8 :
  sgr (flagp q 4 ++ ps) (Pen f b x1 x2 x3 x4 x5 x6 x7 x8) = sgr ps (Pen f b x1 x2 x3 (q || x4) x5 x6 x7 x8).
Proof. destruct q; reflexivity. Qed.
Lemma sgr_flag5 q ps f b x1 x2 x3 x4 x5 x6 x7 x8 :
  sgr (flagp q 5 ++ ps) (Pen f b x1 x2 x3 x4 x5 x6 x7 x8) = sgr ps (Pen f b x1 x2 x3 x4 (q || x5) x6 x7 x8).
Proof. destruct q; reflexivity. Qed.
Lemma sgr_flag7 q ps f b x1 x2 x3 x4 x5 x6 x7 x8 :
  sgr (flagp q 7 ++ ps) (Pen f b x1 x2 x3 x4 x5 x6 x7 x8) = sgr ps (Pen f b x1 x2 x3 x4 x5 (q || x6) x7 x8).
Proof. destruct q; reflexivity. Qed.
Lemma sgr_flag8 q ps f b x1 x2 x3 x4 x5 x6 x7 x8 :
  sgr (flagp q 8 ++ ps) (Pen f b x1 x2 x3 x4 x5 x6 x7 x8) = sgr ps (Pen f b x1 x2 x3 x4 x5 x6 (q || x7) x8).
Proof. destruct q; reflexivity. Qed.
Lemma sgr_flag9 q ps f b x1 x2 x3 x4 x5 x6 x7 x8 :
  sgr (flagp q 9 ++ ps) (Pen f b x1 x2 x3 x4 x5 x6 x7 x8) = sgr ps (Pen f b x1 x2 x3 x4 x5 x6 x7 (q || x8)).
Proof. destruct q; reflexivity. Qed.

Lemma sgr_style s p : sgr (style_params s) p = merge s p.
Proof.
  destruct p as [f b x1 x2 x3 x4 x5 x6 x7 x8]. unfold style_params, merge. cbn [p_fg p_bg p_bold p_dim p_italic p_underline p_blink p_reverse p_hidden p_strike].
  rewrite <- (app_nil_r (flagp (strike s) 9)).
  rewrite sgr_fg, sgr_bg, sgr_flag1, sgr_flag2, sgr_flag3, sgr_flag4, sgr_flag5, sgr_flag7, sgr_flag8, sgr_flag9.
  reflexivity.
Qed.

Lemma params_ne s : style_empty s = false -> style_params s <> [].
Proof.
  unfold style_empty, style_params.
  destruct s as [f b b1 b2 b3 b4 b5 b6 b7 b8]; cbn.
  destruct f; [discriminate|]. destruct b; [discriminate|]. cbn.
  destruct b1; [discriminate|]. destruct b5; [discriminate|]. destruct b2; [discriminate|].
  destruct b3; [discriminate|]. destruct b6; [discriminate|]. destruct b4; [discriminate|].
  destruct b7; [discriminate|]. destruct b8; [discriminate|]. discriminate.
Qed.

Lemma params_ok s : style_ok s -> Forall (fun n => 0 <= n) (style_params s).
Proof.
  intros [Hf Hb]. unfold style_params.
  assert (Hfl : forall b n, 0 <= n -> Forall (fun n => 0 <= n) (flagp b n)).
  { intros [] n Hn; repeat constructor; auto. }
  assert (Ho : forall l o, 0 <= l -> ocolor_ok o -> Forall (fun n => 0 <= n) (optp l o)).
  { intros l [c|] Hl Hc; cbn in *; unfold color_ok in *; repeat constructor; lia. }
  repeat (apply Forall_app; split); try (apply Hfl; lia); apply Ho; auto; lia.
Qed.

Lemma merge_style0 p : merge style0 p = p.
Proof. destruct p; reflexivity. Qed.

Lemma set_pen_id t : set_pen t (tpn t) = t.
Proof. destruct t; reflexivity. Qed.

(** The escape sequence of a style switches on exactly its attributes. *)
Lemma feeds_style s t : pst t = Ground -> style_ok s ->
  feeds t (to_ansi s) = set_pen t (merge s (tpn t)).
Proof.
  intros Hp Hok. unfold to_ansi. destruct (style_empty s) eqn:E.
  - apply style_empty_eq in E as ->. rewrite merge_style0. cbn. symmetry. apply set_pen_id.
  - rewrite style_codes_params, feeds_csi; auto; try lia.
    + unfold csi. cbn [Z.eqb Pos.eqb]. rewrite sgr_style. reflexivity.
    + apply params_ok; auto.
    + apply params_ne; auto.
Qed.

Lemma merge_pen0 s : merge s pen0 = pen_of s.
Proof. unfold merge, pen_of. cbn. rewrite !orb_false_r. destruct s as [[?|] [?|] ]; reflexivity. Qed.

Lemma merge_same_shape a s : same_shape a s -> merge s (pen_of a) = pen_of s.
Proof.
  unfold same_shape, merge, pen_of. destruct a as [f b b1 b2 b3 b4 b5 b6 b7 b8];
    destruct s as [f' b' c1 c2 c3 c4 c5 c6 c7 c8]; cbn.
  intros (Hf & Hb & -> & -> & -> & -> & -> & -> & -> & ->).
  rewrite !orb_diag. destruct f, f', b, b'; cbn in *; try discriminate; reflexivity.
Qed.

Lemma same_shape_sym a b : same_shape a b -> same_shape b a.
Proof. unfold same_shape. intuition. Qed.
Lemma same_shape_trans a b c : same_shape a b -> same_shape b c -> same_shape a c.
Proof. unfold same_shape. intuition congruence. Qed.
Lemma same_shape_0 s : same_shape s style0 -> s = style0.
Proof.
  unfold same_shape. destruct s as [f b b1 b2 b3 b4 b5 b6 b7 b8]. cbn.
  intros (Hf & Hb & -> & -> & -> & -> & -> & -> & -> & ->).
  destruct f, b; try discriminate. reflexivity.
Qed.

(** Printing a one-column character when no wrap is pending. *)
Lemma feed_char t c : pst t = Ground -> 32 <= c -> c <> 127 -> cw c = 1 ->
  0 <= cx t < tw t -> pend t = false -> tkind (grid t (cx t) (cy t)) = Single ->
  feed t c = (let t2 := set_grid t (gset (grid t) (cx t) (cy t) (TCell c (tpn t) Single)) in
              if cx t + 1 <? tw t then set_cur t2 (cx t + 1) (cy t) false
              else set_cur t2 (tw t - 1) (cy t) true).
Proof.
  intros Hp Hc Hc' Hw Hx Hpend Hk. unfold TermEmu.feed. rewrite Hp.
  replace (c =? 27) with false by lia. replace (c =? 13) with false by lia.
  replace (c =? 10) with false by lia. replace ((c <? 32) || (c =? 127)) with false by lia.
  unfold put. rewrite Hw. cbn [Z.leb Z.compare]. rewrite Hpend. cbn [orb].
  replace (tw t <? cx t + 1) with false by lia.
  unfold break_wide. rewrite Hk. reflexivity.
Qed.

(* ---------- simulation ---------- *)
Variables (W H : Z).
Hypothesis HW : 1 <= W.
Hypothesis HH : 1 <= H.
Variable (P : Prop) (s0 : style).

Definition sync (w : writer) (t : term) : Prop :=
  cy t = wy w /\ 0 <= wy w < H /\
  ((0 <= wx w < W /\ cx t = wx w /\ pend t = false) \/ (wx w = W /\ pend t = true)).

Definition penrel (w : writer) (t : term) : Prop :=
  P -> (wstyle w = style0 /\ tpn t = pen0) \/
       (same_shape s0 (wstyle w) /\ tpn t = pen_of (wstyle w)).

Record sim (w : writer) (t : term) : Prop := Sim {
  sim_w : tw t = W; sim_h : th t = H; sim_g : pst t = Ground;
  sim_sync : sync w t; sim_single : forall x y, tkind (grid t x y) = Single;
  sim_pen : penrel w t }.

Definition op_ok (o : op) : Prop :=
  0 <= ox o < W /\ 0 <= oy o < H /\ cell_ok cw (ocell o) /\
  (P -> same_shape s0 (cstyle (ocell o))).

Lemma sim_move w t x y : sim w t -> 0 <= x < W -> 0 <= y < H ->
  let '(w', out) := w_move w x y in
  sim w' (feeds t out) /\ grid (feeds t out) = grid t /\ wx w' = x /\ wy w' = y /\
  wstyle w' = wstyle w /\ bce (feeds t out) = bce t /\ tpn (feeds t out) = tpn t.
Proof.
  intros [Hw Hh Hg Hs Hk Hp] Hx Hy. unfold w_move.
  destruct ((x =? wx w) && (y =? wy w)) eqn:E.
  - cbn. repeat split; auto; try lia; apply Hs.
  - rewrite feeds_move by (auto; lia). cbn. repeat split; auto; cbn; try lia.
Qed.

Lemma sim_cell w t c : sim w t -> 0 <= wx w < W -> cell_ok cw c ->
  (P -> same_shape s0 (cstyle c)) ->
  let '(w', out) := w_cell w c in
  let t' := feeds t out in
  sim w' t' /\ bce t' = bce t /\
  exists p, grid t' = gset (grid t) (wx w) (wy w) (TCell (char c) p Single) /\
            (P -> p = pen_of (cstyle c)).
Proof.
  intros [Hw Hh Hg (Hcy & Hyr & Hcx) Hk Hp] Hx (Hc1 & Hc2 & Hc3 & Hc4 & Hst) Hsh.
  destruct Hcx as [(_ & Hcx & Hpend)|[? _]]; [|lia].
  unfold w_cell.
  assert (Hpen : exists q, feeds t (if style_eqb (cstyle c) (wstyle w) then [] else to_ansi (cstyle c))
                 = set_pen t q /\ (P -> q = pen_of (cstyle c))).
  { destruct (style_eqb (cstyle c) (wstyle w)) eqn:E.
    - apply style_eqb_eq in E. exists (tpn t). split; [cbn; symmetry; apply set_pen_id|].
      intros HP. destruct (Hp HP) as [[H1 H2]|[H1 H2]]; rewrite H2, ?E, ?H1; reflexivity.
    - exists (merge (cstyle c) (tpn t)). split; [apply feeds_style; auto|].
      intros HP. destruct (Hp HP) as [[H1 H2]|[H1 H2]]; rewrite H2.
      + apply merge_pen0.
      + apply merge_same_shape. eapply same_shape_trans; [apply same_shape_sym; eauto|auto]. }
  destruct Hpen as (q & Hq & Hqp).
  assert (Hst' : (if style_eqb (cstyle c) (wstyle w) then wstyle w else cstyle c) = cstyle c).
  { destruct (style_eqb (cstyle c) (wstyle w)) eqn:E; auto. apply style_eqb_eq in E. auto. }
  set (out := if style_eqb (cstyle c) (wstyle w) then [] else to_ansi (cstyle c)) in *.
  assert (Hpair : (if style_eqb (cstyle c) (wstyle w) then (wstyle w, []) else (cstyle c, to_ansi (cstyle c))) = (cstyle c, out)).
  { unfold out. destruct (style_eqb (cstyle c) (wstyle w)); rewrite <- ?Hst' at 1; auto. }
  rewrite Hpair. cbv zeta. rewrite feeds_app, Hq.
  cbn [TermEmu.feeds fold_left].
  rewrite feed_char; cbn [set_pen pst cx cy tw pend grid]; auto; try lia.
  cbv zeta. rewrite Hc4.
  destruct (cx t + 1 <? tw t) eqn:E; split.
  - constructor; cbn [set_cur set_grid set_pen tw th pst grid]; auto.
    + unfold sync; cbn [set_cur set_grid set_pen tw th pst grid cx cy pend wx wy]. lia.
    + intros x y. unfold gset. destruct ((x =? cx t) && (y =? cy t)); auto.
    + intros HP. right. cbn [wstyle tpn set_cur set_grid set_pen]. split; auto.
  - split; [reflexivity|]. exists q. split; auto. cbn [set_cur set_grid set_pen grid tpn].
    rewrite Hcx, Hcy. reflexivity.
  - constructor; cbn [set_cur set_grid set_pen tw th pst grid]; auto.
    + unfold sync; cbn [set_cur set_grid set_pen tw th pst grid cx cy pend wx wy]. lia.
    + intros x y. unfold gset. destruct ((x =? cx t) && (y =? cy t)); auto.
    + intros HP. right. cbn [wstyle tpn set_cur set_grid set_pen]. split; auto.
  - split; [reflexivity|]. exists q. split; auto. cbn [set_cur set_grid set_pen grid tpn].
    rewrite Hcx, Hcy. reflexivity.
Qed.

Lemma sim_cell_at w t o : sim w t -> op_ok o ->
  let '(w', out) := w_cell_at w o in
  let t' := feeds t out in
  sim w' t' /\ bce t' = bce t /\
  exists p, grid t' = gset (grid t) (ox o) (oy o) (TCell (char (ocell o)) p Single) /\
            (P -> p = pen_of (cstyle (ocell o))).
Proof.
  intros Hs (Hx & Hy & Hc & Hsh). unfold w_cell_at.
  pose proof (sim_move w t (ox o) (oy o) Hs Hx Hy) as Hm.
  destruct (w_move w (ox o) (oy o)) as [w1 o1].
  destruct Hm as (Hs1 & Hg1 & Hx1 & Hy1 & Hst1 & Hb1 & _).
  pose proof (sim_cell w1 (feeds t o1) (ocell o) Hs1 ltac:(lia) Hc Hsh) as Hm.
  destruct (w_cell w1 (ocell o)) as [w2 o2]. cbv zeta in *. rewrite feeds_app.
  destruct Hm as (Hs2 & Hb2 & p & Hg2 & Hp). split; auto. split; [congruence|].
  exists p. split; auto. rewrite Hg2, Hg1, Hx1, Hy1. reflexivity.
Qed.

(** Effect of a whole batch of cell writes. *)
Lemma sim_ops ops : forall w t, sim w t -> Forall op_ok ops ->
  StronglySorted before ops ->
  let '(w', out) := apply_ops w ops in
  let t' := feeds t out in
  sim w' t' /\ bce t' = bce t /\
  (forall x y, (forall o, In o ops -> ~ (ox o = x /\ oy o = y)) -> grid t' x y = grid t x y) /\
  (forall o, In o ops -> tch (grid t' (ox o) (oy o)) = char (ocell o) /\
                         (P -> tpen (grid t' (ox o) (oy o)) = pen_of (cstyle (ocell o)))).
Proof.
  induction ops as [|o ops IH]; intros w t Hs Hok Hsrt.
  - cbn. repeat split; try apply Hs; auto; contradiction.
  - inversion_clear Hok as [|? ? Ho Hops]. apply StronglySorted_inv in Hsrt as [Hsrt Hf].
    cbn [apply_ops]. pose proof (sim_cell_at w t o Hs Ho) as Hc.
    destruct (w_cell_at w o) as [w1 o1]. cbv zeta in Hc. destruct Hc as (Hs1 & Hb1 & p & Hg1 & Hp).
    specialize (IH w1 (feeds t o1) Hs1 Hops Hsrt).
    destruct (apply_ops w1 ops) as [w2 o2]. cbv zeta in *. rewrite feeds_app.
    destruct IH as (Hs2 & Hb2 & Hout & Hin). split; auto. split; [congruence|]. split.
    + intros x y Hn. rewrite Hout by (intros; apply Hn; cbn; auto).
      rewrite Hg1. unfold gset. specialize (Hn o (or_introl eq_refl)).
      destruct ((x =? ox o) && (y =? oy o)) eqn:E; auto. lia.
    + intros o' [<-|Ho']; auto.
      rewrite Hout.
      * rewrite Hg1. unfold gset. rewrite !Z.eqb_refl. cbn. auto.
      * intros o' Ho' [Hx Hy]. rewrite Forall_forall in Hf. specialize (Hf o' Ho').
        unfold before in Hf. lia.
Qed.

(** Renderer-level invariant. *)
Record inv (r : renderer) (t : term) (f : Z -> Z -> cell) : Prop := Inv {
  inv_sim : sim (rw r) t;
  inv_wf : wf_buf (prev r);
  inv_bw : bw (prev r) = Z.to_nat (rwidth r);
  inv_bh : bh (prev r) = Z.to_nat (rheight r);
  inv_f : forall x y, get (prev r) x y = f x y;
  inv_ch : forall x y, 0 <= x < W -> 0 <= y < H -> tch (grid t x y) = char (f x y);
  inv_pen : P -> forall x y, 0 <= x < W -> 0 <= y < H -> in_range (prev r) x y = true ->
            same_shape s0 (cstyle (f x y)) -> tpen (grid t x y) = pen_of (cstyle (f x y)) }.

Lemma cells_get (Q : cell -> Prop) b x y :
  wf_buf b -> Forall (Forall Q) (cells b) -> in_range b x y = true -> Q (get b x y).
Proof.
  intros [Hl Hf] HQ Hr. unfold get. rewrite Hr. apply in_range_spec in Hr. unfold cell_at.
  rewrite Forall_forall in HQ.
  assert (Hrow : In (nth (Z.to_nat y) (cells b) []) (cells b)) by (apply nth_In; lia).
  specialize (HQ _ Hrow). rewrite Forall_forall in HQ. apply HQ. apply nth_In.
  rewrite Forall_forall in Hf. rewrite (Hf _ Hrow). lia.
Qed.

Definition b_ok (b : buffer) : Prop :=
  frame_ok cw W H b /\ (P -> Forall (Forall (fun c => same_shape s0 (cstyle c))) (cells b)).

Lemma b_ok_op b o : b_ok b -> in_range b (ox o) (oy o) = true ->
  ocell o = get b (ox o) (oy o) -> op_ok o.
Proof.
  intros [(Hwf & Hw & Hh & Hc) Hs] Hr Hg. assert (Hr' := Hr). apply in_range_spec in Hr'.
  unfold op_ok. rewrite Hg. split; [lia|]. split; [lia|]. split.
  - apply cells_get; auto.
  - intros HP. apply (cells_get (fun c => same_shape s0 (cstyle c)) b); auto.
Qed.

Lemma erased_kind t : tkind (erased t) = Single /\ tch (erased t) = 32.
Proof. split; reflexivity. Qed.

Lemma erased_pen w t : penrel w t -> P -> same_shape s0 style0 ->
  tpen (erased t) = pen0.
Proof.
  intros Hp HP Hs. unfold erased. cbn.
  assert (tpn t = pen0).
  { destruct (Hp HP) as [[_ ->]|[Hw ->]]; auto.
    assert (H1 : wstyle w = style0).
    { apply same_shape_0. eapply same_shape_trans; [apply same_shape_sym|]; eauto. }
    rewrite H1. reflexivity. }
  rewrite H0. destruct (bce t); reflexivity.
Qed.

(** Clearing the screen and homing the cursor. *)
Lemma sim_clear w t : sim w t ->
  let '(w1, o1) := w_clear w in
  let '(w2, o2) := w_move w1 0 0 in
  let t' := feeds t (o1 ++ o2) in
  sim w2 t' /\ bce t' = bce t /\ (forall x y, tch (grid t' x y) = 32) /\
  (P -> same_shape s0 style0 -> forall x y, tpen (grid t' x y) = pen0).
Proof.
  intros Hs. unfold w_clear. destruct Hs as [Hw Hh Hg Hsy Hk Hp] eqn:Es.
  assert (Hs1 : sim w (feeds t clear_screen_code)).
  { rewrite feeds_clear by auto. constructor; cbn; auto. }
  pose proof (sim_move w _ 0 0 Hs1 ltac:(lia) ltac:(lia)) as Hm.
  destruct (w_move w 0 0) as [w2 o2]. cbv zeta. rewrite feeds_app.
  destruct Hm as (Hs2 & Hg2 & _ & _ & _ & Hb2 & _). split; auto.
  rewrite Hb2, Hg2. rewrite feeds_clear by auto. cbn. split; auto. split; auto.
  intros HP Hsh x y. apply (erased_pen w t Hp HP Hsh).
Qed.

Lemma inv_full r t f b : inv r t f -> b_ok b ->
  let '(r', out) := render_full r b in inv r' (feeds t out) (get b).
Proof.
  intros [Hs Hwf Hbw Hbh Hf Hch Hpn] Hb. unfold render_full.
  pose proof (sim_clear (rw r) t Hs) as Hc. destruct (w_clear (rw r)) as [w1 o1].
  destruct (w_move w1 0 0) as [w2 o2]. cbv zeta in Hc. destruct Hc as (Hs2 & Hb2 & Hc2 & Hp2).
  assert (Hall : Forall op_ok (diff_full b)).
  { apply Forall_forall. intros o Ho. apply in_diff_full in Ho as (Hr & _ & Hg).
    eapply b_ok_op; eauto. }
  pose proof (sim_ops (diff_full b) w2 _ Hs2 Hall (diff_full_sorted b)) as Hm.
  destruct (apply_ops w2 (diff_full b)) as [w3 o3]. cbv zeta in Hm.
  rewrite app_assoc, feeds_app. destruct Hm as (Hs3 & Hb3 & Hout & Hin).
  assert (Hcase : forall x y, (exists o, In o (diff_full b) /\ ox o = x /\ oy o = y /\ ocell o = get b x y) \/
     (cell_empty (get b x y) = true /\ grid (feeds (feeds t (o1 ++ o2)) o3) x y = grid (feeds t (o1 ++ o2)) x y)).
  { intros x y. destruct (in_range b x y) eqn:Er.
    - destruct (cell_empty (get b x y)) eqn:Ee.
      + right. split; auto. apply Hout. intros o Ho [<- <-].
        apply in_diff_full in Ho. destruct Ho as (_ & He & _). congruence.
      + left. exists (Op x y (get b x y)). split; auto. apply in_diff_full. cbn. auto.
    - right. split; [rewrite get_out; auto|]. apply Hout. intros o Ho [<- <-].
      apply in_diff_full in Ho. destruct Ho as (He & _). congruence. }
  constructor; cbn [rw prev rwidth rheight]; auto.
  - apply Hb.
  - lia.
  - lia.
  - intros x y Hx Hy. destruct (Hcase x y) as [(o & Ho & <- & <- & Hoc)|[He Hg]].
    + rewrite <- Hoc. apply Hin; auto.
    + rewrite Hg, Hc2. unfold cell_empty in He. lia.
  - intros HP x y Hx Hy Hr Hsh. destruct (Hcase x y) as [(o & Ho & <- & <- & Hoc)|[He Hg]].
    + rewrite <- Hoc. apply Hin; auto.
    + rewrite Hg. unfold cell_empty in He. apply andb_prop in He as [_ He].
      apply style_empty_eq in He. rewrite He in *. rewrite Hp2; auto.
Qed.

Lemma remove_redundant_id ops s : remove_redundant ops s = ops.
Proof.
  unfold remove_redundant. revert s. induction ops as [|o ops IH]; intros s; cbn; auto.
  destruct (style_eqb (cstyle (ocell o)) s); cbn; rewrite IH; reflexivity.
Qed.

Lemma inv_render r t f b : inv r t f -> b_ok b ->
  let '(r', out) := render r b in inv r' (feeds t out) (get b).
Proof.
  intros Hi Hb. unfold render.
  destruct (negb _) eqn:Ed; [apply inv_full with f; auto|].
  destruct Hi as [Hs Hwf Hbw Hbh Hf Hch Hpn] eqn:Ei.
  assert (Hd : same_dims (prev r) b = true) by (unfold same_dims; lia).
  destruct (diff (prev r) b) as [|o0 ops0] eqn:Eo.
  - assert (Heq : forall x y, get (prev r) x y = get b x y).
    { intros x y. rewrite <- (diff_patch _ _ Hd), Eo. reflexivity. }
    cbn. constructor; auto.
    + intros x y Hx Hy. rewrite <- Heq, Hf. auto.
    + intros HP x y Hx Hy Hr Hsh. rewrite <- Heq, Hf in *. auto.
  - rewrite remove_redundant_id. rewrite <- Eo. destruct (should_full_redraw _ _).
    + apply inv_full with f; auto.
    + assert (Hall : Forall op_ok (diff (prev r) b)).
      { apply Forall_forall. intros o Ho. apply in_diff in Ho as (Hr & _ & Hg); auto.
        eapply b_ok_op; eauto. }
      pose proof (sim_ops (diff (prev r) b) (rw r) t Hs Hall (diff_sorted _ _ Hd)) as Hm.
      destruct (apply_ops (rw r) (diff (prev r) b)) as [w3 o3]. cbv zeta in Hm.
      destruct Hm as (Hs3 & Hb3 & Hout & Hin).
      assert (Hcase : forall x y, (exists o, In o (diff (prev r) b) /\ ox o = x /\ oy o = y /\ ocell o = get b x y) \/
         (get b x y = f x y /\ grid (feeds t o3) x y = grid t x y)).
      { intros x y. destruct (in_range b x y) eqn:Er.
        - destruct (cell_eqb (get (prev r) x y) (get b x y)) eqn:Ee.
          + apply cell_eqb_eq in Ee. right. split; [congruence|]. apply Hout.
            intros o Ho [<- <-]. apply in_diff in Ho; tauto.
          + apply cell_eqb_neq in Ee. left. exists (Op x y (get b x y)). split; auto.
            apply in_diff; cbn; auto.
        - right. split.
          + rewrite <- Hf. rewrite !get_out; auto. unfold same_dims, in_range in *. lia.
          + apply Hout. intros o Ho [<- <-]. apply in_diff in Ho; auto.
            destruct Ho as (Ho & _). congruence. }
      assert (Hdim : bw b = bw (prev r) /\ bh b = bh (prev r)) by (unfold same_dims in Hd; lia).
      constructor; cbn [rw prev rwidth rheight]; auto.
      * apply Hb.
      * lia.
      * lia.
      * intros x y Hx Hy. destruct (Hcase x y) as [(o & Ho & <- & <- & Hoc)|[He Hg]].
        -- rewrite <- Hoc. apply Hin; auto.
        -- rewrite Hg, He. auto.
      * intros HP x y Hx Hy Hr Hsh. destruct (Hcase x y) as [(o & Ho & <- & <- & Hoc)|[He Hg]].
        -- rewrite <- Hoc. apply Hin; auto.
        -- rewrite Hg, He in *. apply Hpn; auto. unfold in_range in *.
           destruct Hdim as [<- <-]. auto.
Qed.

Lemma inv_rclear r t :
  sim (rw r) t -> wf_buf (prev r) ->
  bw (prev r) = Z.to_nat (rwidth r) -> bh (prev r) = Z.to_nat (rheight r) ->
  let '(r', out) := r_clear r in inv r' (feeds t out) blank_frame.
Proof.
  intros Hs Hwf Hbw Hbh. unfold r_clear.
  pose proof (sim_clear (rw r) t Hs) as Hc. destruct (w_clear (rw r)) as [w1 o1].
  destruct (w_move w1 0 0) as [w2 o2]. cbv zeta in Hc. destruct Hc as (Hs2 & Hb2 & Hc2 & Hp2).
  constructor; cbn [rw prev rwidth rheight]; auto.
  - apply wf_clear.
  - cbn. lia.
  - cbn. lia.
  - intros. apply get_clear.
Qed.

Lemma inv_call r t f c : inv r t f ->
  call_ok cw W H c -> (P -> call_shape s0 c) ->
  let '(r', out) := do_call r c in inv r' (feeds t out) (expect1 f c).
Proof.
  intros Hi Hok Hsh. destruct c as [b| | |w h| |]; cbn [do_call expect1].
  - apply inv_render with f; auto. split; auto.
  - cbn. auto.
  - apply inv_rclear; auto; apply Hi.
  - unfold r_resize. apply inv_rclear; cbn; auto; try apply Hi. apply wf_new.
  - destruct (feeds_vis t cursor_hide_code) as [v ->]; [apply Hi|auto|].
    destruct Hi as [[]]; constructor; cbn; auto. constructor; cbn; auto.
  - destruct (feeds_vis t cursor_show_code) as [v ->]; [apply Hi|auto|].
    destruct Hi as [[]]; constructor; cbn; auto. constructor; cbn; auto.
Qed.

Lemma inv_calls cs : forall r t f, inv r t f ->
  Forall (call_ok cw W H) cs -> (P -> Forall (call_shape s0) cs) ->
  let '(r', out) := do_calls r cs in inv r' (feeds t out) (fold_left expect1 cs f).
Proof.
  induction cs as [|c cs IH]; intros r t f Hi Hok Hsh; [cbn; auto|].
  inversion_clear Hok as [|? ? Hc Hcs]. cbn [do_calls fold_left].
  pose proof (inv_call r t f c Hi Hc) as Hm.
  assert (Hs1 : P -> call_shape s0 c) by (intros HP; specialize (Hsh HP); inversion Hsh; auto).
  assert (Hs2 : P -> Forall (call_shape s0) cs) by (intros HP; specialize (Hsh HP); inversion Hsh; auto).
  specialize (Hm Hs1). destruct (do_call r c) as [r1 o1].
  specialize (IH r1 _ _ Hm Hcs Hs2). destruct (do_calls r1 cs) as [r2 o2].
  rewrite feeds_app. auto.
Qed.

Lemma inv_init w h bc : inv (new_renderer w h) (blank_term W H bc) blank_frame.
Proof.
  constructor; cbn; auto.
  - constructor; cbn; auto.
    + unfold sync; cbn. lia.
    + left. auto.
  - apply wf_new.
  - apply get_new.
Qed.
End Emu.

(* ---------- results ---------- *)
Lemma screen_chars cw W H bc w h cs : 1 <= W -> 1 <= H ->
  Forall (call_ok cw W H) cs ->
  forall x y, 0 <= x < W -> 0 <= y < H ->
  tch (grid (feeds cw (blank_term W H bc) (snd (do_calls (new_renderer w h) cs))) x y)
  = char (expected cs x y).
Proof.
  intros HW HH Hok x y Hx Hy.
  pose proof (inv_calls cw W H HW HH False style0 cs _ _ _ (inv_init cw W H HW HH False style0 w h bc) Hok
    ltac:(tauto)) as Hm.
  destruct (do_calls (new_renderer w h) cs) as [r out]. cbn [snd]. apply Hm; auto.
Qed.

Lemma do_calls_app a : forall r b,
  do_calls r (a ++ b) =
  (let '(r1, o1) := do_calls r a in let '(r2, o2) := do_calls r1 b in (r2, o1 ++ o2)).
Proof.
  induction a as [|c a IH]; intros r b; cbn [app do_calls].
  - destruct (do_calls r b). reflexivity.
  - destruct (do_call r c) as [r1 o1]. rewrite IH.
    destruct (do_calls r1 a) as [r2 o2]. destruct (do_calls r2 b) as [r3 o3].
    rewrite app_assoc. reflexivity.
Qed.

Lemma render_dims r b :
  bw (prev r) = Z.to_nat (rwidth r) -> bh (prev r) = Z.to_nat (rheight r) ->
  bw (prev (fst (render r b))) = bw b /\ bh (prev (fst (render r b))) = bh b.
Proof.
  intros H1 H2. unfold render, render_full, w_clear.
  destruct (negb _) eqn:E.
  - destruct (w_move (rw r) 0 0) as [w2 o2]. destruct (apply_ops w2 _) as [w3 o3]. cbn. auto.
  - destruct (diff (prev r) b) eqn:E2; [cbn; lia|].
    destruct (should_full_redraw _ _).
    + destruct (w_move (rw r) 0 0) as [w2 o2]. destruct (apply_ops w2 _) as [w3 o3]. cbn. auto.
    + destruct (apply_ops (rw r) _) as [w3 o3]. cbn. auto.
Qed.

Lemma screen_pens cw W H bc w h cs b s0 : 1 <= W -> 1 <= H ->
  Forall (call_ok cw W H) (cs ++ [Render b]) ->
  Forall (call_shape s0) (cs ++ [Render b]) ->
  forall x y, in_range b x y = true ->
  tpen (grid (feeds cw (blank_term W H bc) (snd (do_calls (new_renderer w h) (cs ++ [Render b])))) x y)
  = pen_of (cstyle (get b x y)).
Proof.
  intros HW HH Hok Hsh x y Hr.
  apply Forall_app in Hok as [Hok1 Hok]. inversion_clear Hok as [|? ? Hb _].
  apply Forall_app in Hsh as [Hsh1 Hsh]. inversion_clear Hsh as [|? ? Hsb _].
  pose proof (inv_calls cw W H HW HH True s0 cs _ _ _ (inv_init cw W H HW HH True s0 w h bc) Hok1
    ltac:(auto)) as Hm.
  rewrite do_calls_app. destruct (do_calls (new_renderer w h) cs) as [r1 o1].
  cbn [do_calls do_call].
  pose proof (render_dims r1 b (inv_bw _ _ _ _ _ _ _ Hm) (inv_bh _ _ _ _ _ _ _ Hm)) as [Hd1 Hd2].
  pose proof (inv_render cw W H HW HH True s0 r1 _ _ b Hm (conj Hb (fun _ => Hsb))) as Hm2.
  destruct (render r1 b) as [r2 o2]. cbn [fst snd] in *. rewrite app_nil_r, feeds_app.
  destruct Hb as (Hwfb & Hw & Hh & Hc). assert (Hr' := Hr). apply in_range_spec in Hr'.
  destruct Hm2 as [Hs Hwf Hbw Hbh Hf Hch Hpn]. apply Hpn; auto; try lia.
  - unfold in_range in *. rewrite Hd1, Hd2. auto.
  - apply cells_get with (Q := fun c => same_shape s0 (cstyle c)) (b := b); auto.
Qed.

(* ---------- C05 ---------- *)
Lemma diff_same b : diff b b = [].
Proof.
  destruct (diff b b) as [|o l] eqn:E; auto.
  assert (Hd : same_dims b b = true) by (unfold same_dims; rewrite !Nat.eqb_refl; auto).
  assert (Ho : In o (diff b b)) by (rewrite E; cbn; auto).
  apply in_diff in Ho; auto. destruct Ho as (_ & Hn & _). congruence.
Qed.

(** Whatever Render leaves as the remembered frame equals the frame rendered. *)
Lemma render_prev r b : wf_buf b -> wf_buf (prev r) ->
  bw (prev r) = Z.to_nat (rwidth r) -> bh (prev r) = Z.to_nat (rheight r) ->
  0 <= rwidth r -> 0 <= rheight r ->
  let r' := fst (render r b) in
  (forall x y, get (prev r') x y = get b x y) /\ bw (prev r') = bw b /\ bh (prev r') = bh b /\
  rwidth r' = Z.of_nat (bw b) /\ rheight r' = Z.of_nat (bh b).
Proof.
  intros Hwb Hwp H1 H2 H3 H4. cbv zeta.
  pose proof (render_dims r b H1 H2) as [Hd1 Hd2]. split; [|split; [auto|split; [auto|]]];
  clear Hd1 Hd2; unfold render, render_full, w_clear; destruct (negb _) eqn:E.
  - destruct (w_move (rw r) 0 0) as [w2 o2]. destruct (apply_ops w2 _) as [w3 o3]. cbn. auto.
  - destruct (diff (prev r) b) eqn:E2.
    + intros x y. cbn. rewrite <- (diff_patch (prev r) b), E2; auto. unfold same_dims; lia.
    + destruct (should_full_redraw _ _).
      * destruct (w_move (rw r) 0 0) as [w2 o2]. destruct (apply_ops w2 _) as [w3 o3]. cbn. auto.
      * destruct (apply_ops (rw r) _) as [w3 o3]. cbn. auto.
  - destruct (w_move (rw r) 0 0) as [w2 o2]. destruct (apply_ops w2 _) as [w3 o3]. cbn. auto.
  - destruct (diff (prev r) b) eqn:E2; [cbn; lia|].
    destruct (should_full_redraw _ _).
    + destruct (w_move (rw r) 0 0) as [w2 o2]. destruct (apply_ops w2 _) as [w3 o3]. cbn. auto.
    + destruct (apply_ops (rw r) _) as [w3 o3]. cbn. lia.
Qed.

(** Dimension bookkeeping, for every call sequence (no assumption on frames). *)
Definition dims_ok (r : renderer) : Prop :=
  bw (prev r) = Z.to_nat (rwidth r) /\ bh (prev r) = Z.to_nat (rheight r).

Lemma dims_call r c : dims_ok r -> dims_ok (fst (do_call r c)).
Proof.
  unfold dims_ok. intros [H1 H2]. destruct c as [b| | |w h| |]; cbn [do_call]; auto.
  - pose proof (render_dims r b H1 H2) as [Hd1 Hd2]. revert Hd1 Hd2.
    unfold render, render_full, w_clear. destruct (negb _) eqn:E.
    + destruct (w_move (rw r) 0 0) as [w2 o2]. destruct (apply_ops w2 _) as [w3 o3]. cbn. lia.
    + destruct (diff (prev r) b) eqn:E2; [cbn; lia|].
      destruct (should_full_redraw _ _).
      * destruct (w_move (rw r) 0 0) as [w2 o2]. destruct (apply_ops w2 _) as [w3 o3]. cbn. lia.
      * destruct (apply_ops (rw r) _) as [w3 o3]. cbn. lia.
  - unfold r_clear, w_clear. destruct (w_move (rw r) 0 0). cbn. lia.
  - unfold r_resize, r_clear, w_clear. cbn [rw].
    destruct (w_move (rw r) 0 0). cbn. lia.
Qed.

Lemma dims_calls cs : forall r, dims_ok r -> dims_ok (fst (do_calls r cs)).
Proof.
  induction cs as [|c cs IH]; intros r Hr; [auto|]. cbn [do_calls].
  pose proof (dims_call r c Hr) as Hc. destruct (do_call r c) as [r1 o1].
  specialize (IH r1 Hc). destruct (do_calls r1 cs) as [r2 o2]. auto.
Qed.

Lemma diff_get_eq a b : same_dims a b = true -> (forall x y, get a x y = get b x y) -> diff a b = [].
Proof.
  intros Hd H. destruct (diff a b) as [|o l] eqn:E; auto.
  assert (Ho : In o (diff a b)) by (rewrite E; cbn; auto).
  apply in_diff in Ho; auto. destruct Ho as (_ & Hn & _). exfalso; apply Hn, H.
Qed.

Lemma rerender_silent r b b' : dims_ok r -> same_dims b b' = true ->
  (forall x y, get b x y = get b' x y) ->
  render (fst (render r b)) b' = (fst (render r b), []).
Proof.
  intros [H1 H2] Hbb Hg.
  assert (Hpost : (forall x y, get (prev (fst (render r b))) x y = get b x y) /\
    rwidth (fst (render r b)) = Z.of_nat (bw b) /\ rheight (fst (render r b)) = Z.of_nat (bh b)).
  { unfold render, render_full, w_clear. destruct (negb _) eqn:E.
    - destruct (w_move (rw r) 0 0) as [w2 o2]. destruct (apply_ops w2 _) as [w3 o3]. cbn. auto.
    - destruct (diff (prev r) b) eqn:E2.
      + cbn. split; [|lia]. intros x y. rewrite <- (diff_patch (prev r) b), E2; auto. unfold same_dims; lia.
      + destruct (should_full_redraw _ _).
        * destruct (w_move (rw r) 0 0) as [w2 o2]. destruct (apply_ops w2 _) as [w3 o3]. cbn. auto.
        * destruct (apply_ops (rw r) _) as [w3 o3]. cbn. split; auto. lia. }
  pose proof (render_dims r b H1 H2) as [Hd1 Hd2].
  destruct (render r b) as [r' o']. cbn [fst] in *. destruct Hpost as (Hp & Hw & Hh).
  unfold render. rewrite Hw, Hh. unfold same_dims in Hbb.
  replace (negb _) with false by lia.
  rewrite diff_get_eq; auto.
  - unfold same_dims. lia.
  - intros x y. rewrite Hp. auto.
Qed.

(* ---------- C06: SetString / SetLine ---------- *)
(** Columns occupied by each cluster when laid out from [x]. *)
Fixpoint layout_at (x : Z) (cl : list (Z * Z)) : list (Z * Z) :=
  match cl with [] => [] | (ch, w) :: r => (x, ch) :: layout_at (x + w) r end.

Lemma wf_set_clusters cl : forall b x y st n, wf_buf b -> wf_buf (fst (set_clusters b x y cl st n)).
Proof.
  induction cl as [|[ch w] cl IH]; intros b x y st n Hb; cbn [set_clusters]; auto.
  destruct (Z.of_nat (bw b) <=? x); auto. apply IH, wf_set, Hb.
Qed.

Lemma dims_set_clusters cl : forall b x y st n,
  bw (fst (set_clusters b x y cl st n)) = bw b /\ bh (fst (set_clusters b x y cl st n)) = bh b.
Proof.
  induction cl as [|[ch w] cl IH]; intros b x y st n; cbn [set_clusters]; auto.
  destruct (Z.of_nat (bw b) <=? x); auto.
  destruct (IH (set b x y (Cell ch st w)) (x + w) y st (n + w)) as [-> ->]. apply set_dims.
Qed.

Definition in_range_dims b b' : bw b' = bw b /\ bh b' = bh b ->
  forall x y, in_range b' x y = in_range b x y.
Proof. intros [H1 H2] x y. unfold in_range. rewrite H1, H2. reflexivity. Qed.

(** Nothing outside the written columns of row y changes. *)
Lemma set_clusters_out cl : forall b x y st n x' y', wf_buf b ->
  Forall (fun p => 1 <= snd p) cl ->
  y' <> y \/ x' < x \/ x + fold_right (fun p a => snd p + a) 0 cl <= x' ->
  get (fst (set_clusters b x y cl st n)) x' y' = get b x' y'.
Proof.
  induction cl as [|[ch w] cl IH]; intros b x y st n x' y' Hb Hw Hout; cbn [set_clusters]; auto.
  inversion_clear Hw as [|? ? Hw1 Hw2]. cbn [snd fold_right] in *.
  assert (Hpos : 0 <= fold_right (fun p a => snd p + a) 0 cl).
  { clear -Hw2. induction Hw2; cbn [fold_right]; lia. }
  destruct (Z.of_nat (bw b) <=? x); auto.
  rewrite IH; auto using wf_set; [|lia].
  rewrite get_set by auto. destruct ((x =? x') && (y =? y') && in_range b x y) eqn:E; auto. lia.
Qed.

(** Every cluster that starts inside the row is stored at its column. *)
Lemma set_clusters_in cl : forall b x y st n x' ch, wf_buf b -> 0 <= x ->
  0 <= y < Z.of_nat (bh b) ->
  Forall (fun p => 1 <= snd p) cl ->
  In (x', ch) (layout_at x cl) -> x' < Z.of_nat (bw b) ->
  exists w, get (fst (set_clusters b x y cl st n)) x' y = Cell ch st w /\ In (ch, w) cl.
Proof.
  induction cl as [|[c w] cl IH]; intros b x y st n x' ch Hb Hx Hy Hw Hin Hlt; cbn in Hin; [contradiction|].
  inversion_clear Hw as [|? ? Hw1 Hw2]. cbn [snd] in *. cbn [set_clusters].
  assert (Hge : forall cl x0 p, Forall (fun p => 1 <= snd p) cl -> In p (layout_at x0 cl) -> x0 <= fst p).
  { clear. induction cl as [|[c w] cl IH]; intros x0 p Hw Hin; cbn in Hin; [contradiction|].
    inversion_clear Hw as [|? ? Hw1 Hw2]. cbn in Hw1. destruct Hin as [<-|Hin]; [cbn; lia|].
    specialize (IH _ _ Hw2 Hin). lia. }
  assert (Hxx : x <= x').
  { destruct Hin as [Hin|Hin]; [congruence || (injection Hin as <- <-; lia)|].
    specialize (Hge _ _ _ Hw2 Hin). cbn in Hge. lia. }
  replace (Z.of_nat (bw b) <=? x) with false by lia.
  destruct Hin as [Hin|Hin].
  - injection Hin as <- <-. exists w. split; [|cbn; auto].
    rewrite set_clusters_out; auto using wf_set; [|lia].
    rewrite get_set by auto. rewrite !Z.eqb_refl.
    replace (in_range b x y) with true; [reflexivity|]. symmetry. apply in_range_spec. lia.
  - destruct (set_dims b x y (Cell c st w)) as [Hd1 Hd2].
    destruct (IH (set b x y (Cell c st w)) (x + w) y st (n + w) x' ch) as (w' & Hg & Hi);
      auto using wf_set; try lia.
    exists w'. split; auto. cbn. auto.
Qed.

Lemma wf_blank_from n : forall b x y, wf_buf b -> wf_buf (blank_from b x y n).
Proof. induction n; intros b x y Hb; cbn; auto using wf_set. Qed.

Lemma get_blank_from n : forall b x y x' y', wf_buf b ->
  get (blank_from b x y n) x' y' =
  if (y' =? y) && (x <=? x') && (x' <? x + Z.of_nat n) then empty_cell else get b x' y'.
Proof.
  induction n as [|n IH]; intros b x y x' y' Hb; cbn [blank_from].
  - replace (_ && _) with false by lia. reflexivity.
  - rewrite IH, get_set by auto using wf_set.
    destruct ((y' =? y) && (x + 1 <=? x') && (x' <? x + 1 + Z.of_nat n)) eqn:E1;
    destruct ((y' =? y) && (x <=? x') && (x' <? x + Z.of_nat (S n))) eqn:E2; auto; try lia.
    + assert (x' = x) by lia. assert (y' = y) by lia. subst. rewrite !Z.eqb_refl.
      destruct (in_range b x y) eqn:Er; auto. cbn. apply get_out; auto.
    + replace ((x =? x') && (y =? y')) with false by lia. reflexivity.
Qed.

(** Diff between frames of different sizes redraws every visible cell. *)
Lemma diff_resized old new : same_dims old new = false ->
  forall x y, char (patch blank_frame (diff old new) x y) = char (get new x y) /\
              cstyle (patch blank_frame (diff old new) x y) = cstyle (get new x y).
Proof.
  intros Hd x y. unfold diff. rewrite Hd.
  destruct (in_range new x y && negb (cell_empty (get new x y))) eqn:E.
  - rewrite (patch_one _ _ x y (get new x y)); auto using diff_full_sorted.
    apply in_diff_full. cbn. destruct (in_range new x y), (cell_empty (get new x y)); auto; discriminate.
  - rewrite patch_none.
    + unfold blank_frame. destruct (in_range new x y) eqn:Er.
      * destruct (cell_empty (get new x y)) eqn:Ee; [|discriminate].
        unfold cell_empty in Ee. apply andb_prop in Ee as [Ec Es].
        apply style_empty_eq in Es. rewrite Es. cbn. split; [lia|reflexivity].
      * rewrite (get_out new x y) by auto. auto.
    + intros o Ho [<- <-]. apply in_diff_full in Ho as (Hr & He & _). rewrite Hr, He in E. discriminate.
Qed.

Lemma pen_of_inj a b : pen_of a = pen_of b -> a = b.
Proof.
  destruct a as [f b1 x1 x2 x3 x4 x5 x6 x7 x8], b as [f' b1' y1 y2 y3 y4 y5 y6 y7 y8].
  unfold pen_of, tcolor_of. cbn. intros Hp. injection Hp as Hf Hb. intros. subst. f_equal.
  - destruct f as [[]|], f' as [[]|]; cbn in Hf; congruence.
  - destruct b1 as [[]|], b1' as [[]|]; cbn in Hb; congruence.
Qed.

Lemma to_ansi_inj a b : style_ok a -> style_ok b -> to_ansi a = to_ansi b -> a = b.
Proof.
  intros Ha Hb He. apply pen_of_inj. rewrite <- !merge_pen0.
  pose proof (feeds_style (fun _ => 1) a (blank_term 1 1 false) eq_refl Ha) as H1.
  pose proof (feeds_style (fun _ => 1) b (blank_term 1 1 false) eq_refl Hb) as H2.
  rewrite He, H2 in H1. apply (f_equal tpn) in H1. cbn in H1. symmetry. exact H1.
Qed.

Lemma diff_resized_spec old new : ~ (bw old = bw new /\ bh old = bh new) ->
  (forall o, In o (diff old new) <->
     in_range new (ox o) (oy o) = true /\
     ~ (char (get new (ox o) (oy o)) = 32 /\ cstyle (get new (ox o) (oy o)) = style0) /\
     ocell o = get new (ox o) (oy o)) /\
  StronglySorted before (diff old new).
Proof.
  intros Hd. unfold diff. replace (same_dims old new) with false by (unfold same_dims; lia).
  split; [|apply diff_full_sorted]. intros o. rewrite in_diff_full.
  assert (He : cell_empty (get new (ox o) (oy o)) = false <->
    ~ (char (get new (ox o) (oy o)) = 32 /\ cstyle (get new (ox o) (oy o)) = style0)).
  { unfold cell_empty. rewrite <- style_empty_eq. destruct (style_empty _); lia. }
  tauto.
Qed.

Lemma set_clusters_written cl : forall b x y st n, Forall (fun p => 1 <= snd p) cl ->
  0 <= x -> n <= snd (set_clusters b x y cl st n) <= n + fold_right (fun p a => snd p + a) 0 cl /\
  (snd (set_clusters b x y cl st n) = n + fold_right (fun p a => snd p + a) 0 cl \/
   Z.of_nat (bw b) - x + n <= snd (set_clusters b x y cl st n)).
Proof.
  induction cl as [|[ch w] cl IH]; intros b x y st n Hw Hx; cbn [set_clusters fold_right snd]; [lia|].
  inversion_clear Hw as [|? ? Hw1 Hw2]. cbn [snd] in *.
  assert (Hpos : 0 <= fold_right (fun p a => snd p + a) 0 cl).
  { clear -Hw2. induction Hw2; cbn [fold_right]; lia. }
  destruct (Z.of_nat (bw b) <=? x) eqn:E; cbn [snd]; [lia|].
  specialize (IH (set b x y (Cell ch st w)) (x + w) y st (n + w) Hw2 ltac:(lia)).
  destruct (set_dims b x y (Cell ch st w)) as [Hd _]. rewrite Hd in IH. lia.
Qed.

Lemma layout_before cl : forall x x' ch, Forall (fun p => 1 <= snd p) cl ->
  In (x', ch) (layout_at x cl) -> x' < x + fold_right (fun p a => snd p + a) 0 cl.
Proof.
  induction cl as [|[c w] cl IH]; intros x x' ch Hw Hin; cbn in Hin; [contradiction|].
  inversion_clear Hw as [|? ? Hw1 Hw2]. cbn [snd fold_right] in *.
  assert (Hpos : 0 <= fold_right (fun p a => snd p + a) 0 cl).
  { clear -Hw2. induction Hw2; cbn [fold_right]; lia. }
  destruct Hin as [Hin|Hin]; [injection Hin as <- <-; lia|].
  specialize (IH _ _ _ Hw2 Hin). lia.
Qed.

Lemma set_line_spec b y cl st : wf_buf b -> 0 <= y < Z.of_nat (bh b) ->
  Forall (fun p => 1 <= snd p) cl ->
  (forall x' ch, In (x', ch) (layout_at 0 cl) -> x' < Z.of_nat (bw b) ->
     exists w, get (set_line b y cl st) x' y = Cell ch st w /\ In (ch, w) cl) /\
  (forall x', fold_right (fun p a => snd p + a) 0 cl <= x' -> get (set_line b y cl st) x' y = empty_cell) /\
  (forall x' y', y' <> y -> get (set_line b y cl st) x' y' = get b x' y').
Proof.
  intros Hb Hy Hw. unfold set_line, set_string.
  replace ((y <? 0) || (Z.of_nat (bh b) <=? y)) with false by lia.
  replace (false || (0 <? 0)) with false by reflexivity.
  pose proof (set_clusters_written cl b 0 y st 0 Hw ltac:(lia)) as Hwr.
  pose proof (fun x' ch => set_clusters_in cl b 0 y st 0 x' ch Hb ltac:(lia) Hy Hw) as Hin.
  pose proof (fun x' y' => set_clusters_out cl b 0 y st 0 x' y' Hb Hw) as Hout.
  pose proof (wf_set_clusters cl b 0 y st 0 Hb) as Hwf.
  pose proof (dims_set_clusters cl b 0 y st 0) as [Hd1 Hd2].
  destruct (set_clusters b 0 y cl st 0) as [b' n]. cbn [fst snd] in *.
  assert (Hpos : 0 <= fold_right (fun p a => snd p + a) 0 cl).
  { clear -Hw. induction Hw; cbn [fold_right]; lia. }
  split; [|split].
  - intros x' ch Hi Hl. destruct (Hin x' ch Hi Hl) as (w & Hg & Hc). exists w. split; auto.
    rewrite get_blank_from by auto.
    pose proof (layout_before _ _ _ _ Hw Hi).
    replace ((y =? y) && (n <=? x') && (x' <? n + Z.of_nat (Z.to_nat (Z.of_nat (bw b) - n)))) with false by lia.
    auto.
  - intros x' Hx'. rewrite get_blank_from by auto.
    destruct ((y =? y) && (n <=? x') && (x' <? n + Z.of_nat (Z.to_nat (Z.of_nat (bw b) - n)))) eqn:E; auto.
    rewrite Hout by lia. apply get_out. unfold in_range. lia.
  - intros x' y' Hne. rewrite get_blank_from by auto.
    replace ((y' =? y) && (n <=? x') && (x' <? n + Z.of_nat (Z.to_nat (Z.of_nat (bw b) - n)))) with false by lia.
    apply Hout. auto.
Qed.
