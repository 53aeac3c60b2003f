(** The inline renderer's output interpreted by the terminal emulator (C11). *)
From Verif Require Import Prelude Utf8 TermEmu InlineModel InlineSpec TruncProofs TruncItems.
From Verif Require RenderEmu.

(** What a row of the screen shows: characters with their cell kind. *)
Definition cell2 (c : tcell) : Z * ckind := (tch c, tkind c).
Definition blankc : Z * ckind := (32, Single).

Definition paint (cw : Z -> Z) (s : list Z) : list (Z * ckind) :=
  flat_map (fun c => if cw c =? 1 then [(c, Single)]
                     else if cw c =? 2 then [(c, Lead); (32, Trail)] else []) s.

(** Items whose effect on the terminal is only to show a character or to change colours
    and attributes (or a title / hyperlink). *)
Definition show_ok (cw rw : Z -> Z) (i : item) : Prop :=
  match i with
  | Ch c => scalar c /\ 32 <= c /\ c <> 127 /\ cw c = rw c
  | SCsi ps f => f = 109 /\ Forall (fun b => 48 <= b <= 57 \/ b = 59) ps
  | SOscBel b | SOscSt b => Forall (fun x => 32 <= x < 127) b
  | SEsc2 _ => False
  end.

Definition item_cps (i : item) : list Z :=
  match i with Ch c => [c] | _ => item_bytes i end.

Section Emu.
Variable cw : Z -> Z.
Variable zw : Z -> bool.
Notation rdw := (rdw zw).
Notation feeds := (feeds cw).
Notation feed := (feed cw).
Notation show_ok := (show_ok cw rdw).
Notation paint := (paint cw).

Lemma show_item_ok i : show_ok i -> item_ok i.
Proof.
  destruct i; cbn [InlineEmu.show_ok item_ok]; try tauto.
  - intros (A & B & C & D). split; auto. lia.
  - intros [-> Hp]. split; [lia|]. eapply Forall_impl; [|exact Hp]. cbn; lia.
  - intros Hb. eapply Forall_impl; [|exact Hb]. cbn; lia.
  - intros Hb. eapply Forall_impl; [|exact Hb]. cbn; lia.
Qed.

Lemma enc_low l : Forall (fun x => 0 <= x < 128) l -> enc l = l.
Proof.
  induction 1 as [|x l Hx Hl IH]; [reflexivity|]. rewrite enc_cons_low by lia. rewrite IH. reflexivity.
Qed.

Lemma item_enc i : show_ok i -> item_bytes i = enc (item_cps i) /\ Forall scalar (item_cps i).
Proof.
  intros Hi. destruct i; cbn [InlineEmu.show_ok item_cps] in *; try tauto.
  - cbn [item_bytes enc flat_map]. rewrite app_nil_r. split; auto. constructor; [tauto|constructor].
  - destruct Hi as [-> Hp].
    assert (Forall (fun x => 0 <= x < 128) (item_bytes (SCsi params 109))).
    { cbn [item_bytes]. do 2 (constructor; [lia|]). apply Forall_app. split; [|repeat constructor; lia].
      eapply Forall_impl; [|exact Hp]. cbn; lia. }
    rewrite enc_low by auto. split; auto. eapply Forall_impl; [|exact H]. cbn. unfold scalar. lia.
  - assert (Forall (fun x => 0 <= x < 128) (item_bytes (SOscBel body))).
    { cbn [item_bytes]. do 2 (constructor; [lia|]). apply Forall_app. split; [|repeat constructor; lia].
      eapply Forall_impl; [|exact Hi]. cbn; lia. }
    rewrite enc_low by auto. split; auto. eapply Forall_impl; [|exact H]. cbn. unfold scalar. lia.
  - assert (Forall (fun x => 0 <= x < 128) (item_bytes (SOscSt body))).
    { cbn [item_bytes]. do 2 (constructor; [lia|]). apply Forall_app. split; [|repeat constructor; lia].
      eapply Forall_impl; [|exact Hi]. cbn; lia. }
    rewrite enc_low by auto. split; auto. eapply Forall_impl; [|exact H]. cbn. unfold scalar. lia.
Qed.

Definition line_cps (l : list item) : list Z := flat_map item_cps l.
Lemma line_enc l : Forall show_ok l -> line_bytes l = enc (line_cps l) /\ Forall scalar (line_cps l).
Proof.
  induction l as [|i l IH]; intros Hf; [split; [reflexivity|constructor]|]. inversion_clear Hf as [|? ? Hi Hl]. destruct (IH Hl) as [IH1 IH2].
  destruct (item_enc i Hi) as [E1 E2].
  change (line_cps (i :: l)) with (item_cps i ++ line_cps l). rewrite line_bytes_cons, E1, IH1, enc_app.
  split; auto. apply Forall_app; auto.
Qed.

(** Feeding bytes: decode UTF-8, then interpret. *)
Definition emu (t : term) (bs : list Z) : term := feeds t (runes_of bs).

Lemma runes_of_app_enc s b : Forall scalar s -> runes_of (enc s ++ b) = s ++ runes_of b.
Proof.
  induction 1 as [|c s Hc Hs IH]; [reflexivity|]. cbn [enc flat_map app]. rewrite <- app_assoc.
  rewrite runes_of_cons_rune by auto. f_equal. exact IH.
Qed.

Lemma emu_enc t s b : Forall scalar s -> emu t (enc s ++ b) = emu (feeds t s) b.
Proof.
  intros Hs. unfold emu. rewrite runes_of_app_enc by auto. apply RenderEmu.feeds_app.
Qed.
Lemma emu_low t s b : Forall (fun x => 0 <= x < 128) s -> emu t (s ++ b) = emu (feeds t s) b.
Proof.
  intros Hs. rewrite <- (enc_low s) at 1 by auto. apply emu_enc. eapply Forall_impl; [|exact Hs].
  cbn. unfold scalar. lia.
Qed.
Lemma emu_nil t : emu t [] = t.
Proof. reflexivity. Qed.

(* ---------- rows ---------- *)
Variables (W H : Z).
Hypothesis HW : 1 <= W.
Hypothesis HH : 1 <= H.
Definition clean (g : Z -> Z -> tcell) (k y : Z) : Prop :=
  forall x, k <= x < W ->
    (tkind (g x y) = Trail -> k < x /\ tkind (g (x - 1) y) = Lead) /\
    (tkind (g x y) = Lead -> x + 1 < W /\ tkind (g (x + 1) y) = Trail).

Definition shows (g : Z -> Z -> tcell) (y n : Z) (ds : list (Z * ckind)) : Prop :=
  forall x, 0 <= x < n -> cell2 (g x y) = nth (Z.to_nat x) ds blankc.

Definition wfc (ds : list (Z * ckind)) : Prop :=
  Z.of_nat (length ds) <= W /\
  forall k, (snd (nth k ds blankc) = Lead -> snd (nth (S k) ds blankc) = Trail) /\
            (snd (nth k ds blankc) = Trail -> exists j, k = S j /\ snd (nth j ds blankc) = Lead).

Definition wkinds (ds : list (Z * ckind)) : Prop :=
  forall k, (snd (nth k ds blankc) = Lead -> snd (nth (S k) ds blankc) = Trail) /\
            (snd (nth k ds blankc) = Trail -> exists j, k = S j /\ snd (nth j ds blankc) = Lead).

Lemma wkinds_nil : wkinds [].
Proof. intros k. destruct k; cbn; split; discriminate. Qed.

Lemma wkinds_cons1 c ds : wkinds ds -> wkinds ((c, Single) :: ds).
Proof.
  intros Hw k. destruct k as [|k].
  - cbn [nth snd]. split; discriminate.
  - destruct (Hw k) as [A B]. split; [exact A|]. intros Ht. destruct (B Ht) as (j & -> & Hj).
    exists (S j). auto.
Qed.
Lemma wkinds_cons2 c ds : wkinds ds -> wkinds ((c, Lead) :: (32, Trail) :: ds).
Proof.
  intros Hw k. destruct k as [|[|k]].
  - cbn [nth snd]. split; [auto|discriminate].
  - cbn [nth snd]. split; [discriminate|]. intros _. exists 0%nat. auto.
  - destruct (Hw k) as [A B]. split; [exact A|]. intros Ht. destruct (B Ht) as (j & -> & Hj).
    exists (S (S j)). auto.
Qed.
Lemma wkinds_paint s : wkinds (paint s).
Proof.
  induction s as [|c s IH]; [apply wkinds_nil|].
  change (paint (c :: s)) with ((if cw c =? 1 then [(c, Single)]
                     else if cw c =? 2 then [(c, Lead); (32, Trail)] else []) ++ paint s).
  destruct (cw c =? 1); [apply wkinds_cons1; auto|].
  destruct (cw c =? 2); [apply wkinds_cons2; auto|auto].
Qed.

Lemma shows_clean g y ds : wfc ds -> shows g y W ds -> clean g 0 y.
Proof.
  intros [Hl Hw] Hs x Hx.
  assert (Hk : forall z, 0 <= z < W -> tkind (g z y) = snd (nth (Z.to_nat z) ds blankc)).
  { intros z Hz. rewrite <- (Hs z Hz). reflexivity. }
  destruct (Hw (Z.to_nat x)) as [A B]. rewrite (Hk x) by lia. split.
  - intros Ht. destruct (B Ht) as (j & Hj & Hlead).
    assert (0 < x) by lia. split; [auto|]. rewrite (Hk (x - 1)) by lia.
    replace (Z.to_nat (x - 1)) with j by lia. auto.
  - intros Hlead. specialize (A Hlead).
    assert (x + 1 < W).
    { destruct (Z_lt_ge_dec (x + 1) W); auto. rewrite nth_overflow in A by lia. discriminate. }
    split; auto. rewrite (Hk (x + 1)) by lia. replace (Z.to_nat (x + 1)) with (S (Z.to_nat x)) by lia. auto.
Qed.

(* ---------- writing one line ---------- *)
(** [t] is writing row [y]; what it wrote so far is [ds]; other rows are as in [t0]. *)
Record mid (t0 t : term) (y : Z) (ds : list (Z * ckind)) : Prop := Mid {
  m_tw : tw t = W; m_th : th t = H; m_pst : pst t = Ground; m_pend : pend t = false;
  m_cx : cx t = Z.of_nat (length ds); m_cy : cy t = y; m_fit : Z.of_nat (length ds) < W;
  m_sh : shows (grid t) y (Z.of_nat (length ds)) ds; m_cl : clean (grid t) (Z.of_nat (length ds)) y;
  m_oth : forall x y', y' <> y -> grid t x y' = grid t0 x y' }.

Lemma gset_same g x y c : gset g x y c x y = c.
Proof. unfold gset. rewrite !Z.eqb_refl. reflexivity. Qed.
Lemma gset_other g x y c x' y' : x' <> x \/ y' <> y -> gset g x y c x' y' = g x' y'.
Proof. intros Hn. unfold gset. destruct ((x' =? x) && (y' =? y)) eqn:E; auto. lia. Qed.

Lemma mid_put t0 t y ds c : mid t0 t y ds -> Z.of_nat (length (ds ++ paint [c])) < W ->
  (cw c = 0 \/ cw c = 1 \/ cw c = 2) -> mid t0 (put cw c t) y (ds ++ paint [c]).
Proof.
  intros [Htw Hth Hpst Hpend Hcx Hcy Hfit Hsh Hcl Hoth] Hlen Hcw.
  destruct t as [tw0 th0 bc g cx0 cy0 pd pn ps cv al sv]. cbn [tw th pst pend cx cy grid] in *. subst tw0 th0 ps pd cx0 cy0.
  set (n := Z.of_nat (length ds)) in *.
  unfold put. cbn [tw th pst pend cx cy grid tpn].
  assert (Hp1 : paint [c] = if cw c =? 1 then [(c, Single)] else if cw c =? 2 then [(c, Lead); (32, Trail)] else []).
  { unfold InlineEmu.paint. cbn [flat_map]. apply app_nil_r. }
  rewrite Hp1 in *. rewrite app_length in Hlen.
  destruct Hcw as [Hc|[Hc|Hc]]; rewrite Hc in *; cbn [Z.leb Z.eqb Z.compare Pos.compare Pos.compare_cont Pos.eqb orb length] in *.
  - rewrite app_nil_r. constructor; auto.
  - replace (W <? n + 1) with false by lia. cbn [orb set_grid set_cur tw th pst pend cx cy grid tpn].
    replace (n + 1 <? W) with true by lia.
    assert (Hnt : tkind (g n y) <> Trail).
    { intros Ht. destruct (Hcl n ltac:(lia)) as [A _]. specialize (A Ht). lia. }
    set (g1 := gset (break_wide g n y) n y (TCell c pn Single)).
    assert (Hg1 : forall x y', (x <> n \/ y' <> y) -> (x <> n + 1 \/ y' <> y) -> g1 x y' = g x y').
    { intros x y' A B. unfold g1. rewrite gset_other by auto. unfold break_wide.
      destruct (tkind (g n y)) eqn:E; [reflexivity| |congruence]. rewrite gset_other by auto. reflexivity. }
    assert (Hgn : g1 n y = TCell c pn Single) by apply gset_same.
    assert (Hgn1 : g1 (n + 1) y = g (n + 1) y \/ tkind (g1 (n + 1) y) = Single).
    { unfold g1. rewrite gset_other by lia. unfold break_wide.
      destruct (tkind (g n y)) eqn:E; [auto|rewrite gset_same; auto|congruence]. }
    assert (Hlead : tkind (g n y) = Lead -> tkind (g1 (n + 1) y) = Single).
    { intros E. unfold g1. rewrite gset_other by lia. unfold break_wide. rewrite E, gset_same. reflexivity. }
    assert (Hl' : Z.of_nat (length (ds ++ [(c, Single)])) = n + 1) by (rewrite app_length; cbn [length]; lia).
    constructor; cbn [set_grid set_cur tw th pst pend cx cy grid tpn]; rewrite ?Hl'; auto; try lia.
    + intros x Hx. destruct (Z.eq_dec x n) as [->|Hxn].
      * rewrite Hgn. unfold n. rewrite Nat2Z.id, app_nth2, Nat.sub_diag by lia. reflexivity.
      * rewrite Hg1 by lia. rewrite app_nth1 by lia. apply Hsh. lia.
    + intros x Hx. destruct (Z.eq_dec x (n + 1)) as [->|Hxn].
      * destruct (tkind (g n y)) eqn:E.
        -- assert (Hk : tkind (g1 (n + 1) y) = Single \/ g1 (n + 1) y = g (n + 1) y) by tauto.
           destruct Hk as [->| ->]; [split; discriminate|].
           destruct (Hcl (n + 1) ltac:(lia)) as [A B]. split.
           ++ intros Ht. destruct (A Ht) as [_ A2]. replace (n + 1 - 1) with n in A2 by lia. congruence.
           ++ intros Hl. destruct (B Hl) as [B1 B2]. split; auto. rewrite Hg1 by lia. auto.
        -- rewrite (Hlead eq_refl). split; discriminate.
        -- congruence.
      * rewrite (Hg1 x) by lia. destruct (Hcl x ltac:(lia)) as [A B]. split.
        -- intros Ht. destruct (A Ht) as [_ A2]. split; [lia|].
           destruct (Z.eq_dec (x - 1) (n + 1)) as [Heq|Hne]; [|rewrite Hg1 by lia; auto].
           rewrite Heq in *. destruct (tkind (g n y)) eqn:E.
           ++ unfold g1. rewrite gset_other by lia. unfold break_wide. rewrite E. auto.
           ++ destruct (Hcl n ltac:(lia)) as [_ B']. destruct (B' E) as [_ B2]. congruence.
           ++ congruence.
        -- intros Hl. destruct (B Hl) as [B1 B2]. split; auto. rewrite Hg1 by lia. auto.
    + intros x y' Hy. rewrite Hg1 by lia. auto.
  - replace (W <? n + 2) with false by lia. cbn [orb set_grid set_cur tw th pst pend cx cy grid tpn].
    replace (n + 2 <? W) with true by lia.
    assert (Hnt : tkind (g n y) <> Trail).
    { intros Ht. destruct (Hcl n ltac:(lia)) as [A _]. specialize (A Ht). lia. }
    set (g0 := break_wide g n y).
    assert (Hg0 : forall x y', (x <> n + 1 \/ y' <> y) -> g0 x y' = g x y').
    { intros x y' B. unfold g0, break_wide.
      destruct (tkind (g n y)) eqn:E; [reflexivity| |congruence]. rewrite gset_other by auto. reflexivity. }
    assert (Hnt1 : tkind (g0 (n + 1) y) <> Trail).
    { unfold g0, break_wide. destruct (tkind (g n y)) eqn:E; [|rewrite gset_same; discriminate|congruence].
      intros Ht. destruct (Hcl (n + 1) ltac:(lia)) as [A _]. destruct (A Ht) as [_ A2].
      replace (n + 1 - 1) with n in A2 by lia. congruence. }
    set (g1 := break_wide g0 (n + 1) y).
    assert (Hg1 : forall x y', (x <> n + 1 \/ y' <> y) -> (x <> n + 2 \/ y' <> y) -> g1 x y' = g x y').
    { intros x y' A B. unfold g1, break_wide.
      destruct (tkind (g0 (n + 1) y)) eqn:E; [apply Hg0; auto| |congruence].
      rewrite gset_other by lia. apply Hg0; auto. }
    set (g2 := gset (gset g1 n y (TCell c pn Lead)) (n + 1) y (TCell 32 pn Trail)).
    assert (Hg2 : forall x y', (x <> n \/ y' <> y) -> (x <> n + 1 \/ y' <> y) -> (x <> n + 2 \/ y' <> y) -> g2 x y' = g x y').
    { intros x y' A B C. unfold g2. rewrite !gset_other by auto. apply Hg1; auto. }
    assert (Hgn : g2 n y = TCell c pn Lead) by (unfold g2; rewrite gset_other by lia; apply gset_same).
    assert (Hgn1 : g2 (n + 1) y = TCell 32 pn Trail) by (apply gset_same).
    assert (Hgn2 : (tkind (g0 (n + 1) y) = Lead /\ tkind (g2 (n + 2) y) = Single) \/
                   (tkind (g0 (n + 1) y) = Single /\ g2 (n + 2) y = g (n + 2) y)).
    { unfold g2. rewrite !gset_other by lia. unfold g1, break_wide.
      destruct (tkind (g0 (n + 1) y)) eqn:E; [right|left|congruence].
      - split; auto. apply Hg0. lia.
      - split; auto. replace (n + 1 + 1) with (n + 2) by lia. rewrite gset_same. reflexivity. }
    assert (Hk01 : tkind (g0 (n + 1) y) = Lead -> tkind (g (n + 1) y) = Lead).
    { unfold g0, break_wide. destruct (tkind (g n y)) eqn:E; auto; [rewrite gset_same; discriminate|congruence]. }
    assert (Hk02 : tkind (g0 (n + 1) y) = Single -> tkind (g (n + 1) y) <> Lead).
    { unfold g0, break_wide. destruct (tkind (g n y)) eqn:E; [intros ->; discriminate| |congruence].
      intros _ Hl. destruct (Hcl n ltac:(lia)) as [_ B']. destruct (B' E) as [_ B2]. congruence. }
    assert (Hl' : Z.of_nat (length (ds ++ [(c, Lead); (32, Trail)])) = n + 2) by (rewrite app_length; cbn [length]; lia).
    constructor; cbn [set_grid set_cur tw th pst pend cx cy grid tpn]; rewrite ?Hl'; auto; try lia.
    + intros x Hx. destruct (Z.eq_dec x n) as [->|Hxn]; [|destruct (Z.eq_dec x (n + 1)) as [->|Hxn1]].
      * rewrite Hgn. unfold n. rewrite Nat2Z.id, app_nth2, Nat.sub_diag by lia. reflexivity.
      * rewrite Hgn1. replace (Z.to_nat (n + 1)) with (S (length ds)) by lia.
        rewrite app_nth2 by lia. replace (S (length ds) - length ds)%nat with 1%nat by lia. reflexivity.
      * rewrite Hg2 by lia. rewrite app_nth1 by lia. apply Hsh. lia.
    + intros x Hx. destruct (Z.eq_dec x (n + 2)) as [->|Hxn].
      * destruct Hgn2 as [[E ->]|[E ->]]; [split; discriminate|].
        destruct (Hcl (n + 2) ltac:(lia)) as [A B]. split.
        -- intros Ht. destruct (A Ht) as [_ A2]. replace (n + 2 - 1) with (n + 1) in A2 by lia.
           exfalso. apply (Hk02 E A2).
        -- intros Hl. destruct (B Hl) as [B1 B2]. split; auto. rewrite Hg2 by lia. auto.
      * rewrite (Hg2 x) by lia. destruct (Hcl x ltac:(lia)) as [A B]. split.
        -- intros Ht. destruct (A Ht) as [_ A2]. split; [lia|].
           destruct (Z.eq_dec (x - 1) (n + 2)) as [Heq|Hne]; [|rewrite Hg2 by lia; auto].
           rewrite Heq in *. destruct Hgn2 as [[E _]|[E ->]]; auto.
           destruct (Hcl (n + 1) ltac:(lia)) as [_ B']. destruct (B' (Hk01 E)) as [_ B2].
           replace (n + 1 + 1) with (n + 2) in B2 by lia. congruence.
        -- intros Hl. destruct (B Hl) as [B1 B2]. split; auto. rewrite Hg2 by lia. auto.
    + intros x y' Hy. rewrite Hg2 by lia. auto.
Qed.

(** Feeding one item. *)
Lemma feeds_osc b : forall t, pst t = Osc -> Forall (fun x => 32 <= x < 127) b -> feeds t b = t.
Proof.
  induction b as [|x b IH]; intros t Hp Hb; [reflexivity|]. inversion_clear Hb as [|? ? Hx Hb'].
  rewrite RenderEmu.feeds_cons.
  assert (Hf : feed t x = t).
  { unfold TermEmu.feed. rewrite Hp. replace (x =? 7) with false by lia. replace (x =? 27) with false by lia. reflexivity. }
  rewrite Hf. apply IH; auto.
Qed.

Lemma feeds_sgrp ps : forall t done cur, pst t = Csi done cur false ->
  Forall (fun b => 48 <= b <= 57 \/ b = 59) ps ->
  exists done' cur', feeds t ps = set_pst t (Csi done' cur' false).
Proof.
  induction ps as [|x ps IH]; intros t done cur Hp Hf.
  - exists done, cur. cbn. rewrite <- Hp. destruct t; reflexivity.
  - inversion_clear Hf as [|? ? Hx Hf']. rewrite RenderEmu.feeds_cons.
    unfold TermEmu.feed at 1. rewrite Hp. unfold is_digit.
    destruct Hx as [Hx| ->].
    + replace ((48 <=? x) && (x <=? 57)) with true by lia.
      destruct (IH (set_pst t (Csi done (cur * 10 + (x - 48)) false)) done (cur * 10 + (x - 48)) eq_refl Hf') as (d & c & ->).
      exists d, c. reflexivity.
    + cbn [Z.leb Z.eqb Z.compare Pos.compare Pos.compare_cont Pos.eqb andb].
      destruct (IH (set_pst t (Csi (cur :: done) 0 false)) (cur :: done) 0 eq_refl Hf') as (d & c & ->).
      exists d, c. reflexivity.
Qed.

Lemma set_pst_id t s : pst t = s -> set_pst t s = t.
Proof. intros <-. destruct t; reflexivity. Qed.

Lemma feed_esc t : pst t = Ground -> feed t 27 = set_pst t Esc.
Proof. intros Hp. unfold TermEmu.feed. rewrite Hp. reflexivity. Qed.
Lemma feed_lb t : pst t = Esc -> feed t 91 = set_pst t (Csi [] 0 false).
Proof. intros Hp. unfold TermEmu.feed. rewrite Hp. reflexivity. Qed.
Lemma feed_rb t : pst t = Esc -> feed t 93 = set_pst t Osc.
Proof. intros Hp. unfold TermEmu.feed. rewrite Hp. reflexivity. Qed.

Lemma feeds_escape i t : show_ok i -> (forall c, i <> Ch c) -> pst t = Ground ->
  exists p, feeds t (item_cps i) = set_pen t p.
Proof.
  intros Hi Hn Hp. destruct i; cbn [InlineEmu.show_ok item_cps item_bytes] in *; try tauto.
  - exfalso. eapply Hn; eauto.
  - destruct Hi as [-> Hps]. rewrite !RenderEmu.feeds_cons.
    rewrite (feed_esc t Hp).
    rewrite RenderEmu.feeds_app.
    rewrite feed_lb by reflexivity. edestruct (feeds_sgrp params (set_pst (set_pst t Esc) (Csi [] 0 false)) [] 0 eq_refl Hps) as (d & c & ->).
    cbn [TermEmu.feeds fold_left]. unfold TermEmu.feed, is_digit. cbn [pst set_pst Z.leb Z.eqb Z.compare Pos.compare Pos.compare_cont Pos.eqb andb].
    unfold csi. cbn [Z.eqb Pos.eqb].
    exists (sgr (rev (c :: d)) (tpn t)). destruct t; cbn [TermEmu.pst] in Hp; subst; reflexivity.
  - rewrite !RenderEmu.feeds_cons.
    rewrite (feed_esc t Hp).
    rewrite feed_rb by reflexivity. rewrite RenderEmu.feeds_app, (feeds_osc body) by (reflexivity || assumption). exists (tpn t).
    destruct t; cbn [TermEmu.pst] in Hp; subst; reflexivity.
  - rewrite !RenderEmu.feeds_cons.
    rewrite (feed_esc t Hp).
    rewrite feed_rb by reflexivity. rewrite RenderEmu.feeds_app, (feeds_osc body) by (reflexivity || assumption). exists (tpn t).
    destruct t; cbn [TermEmu.pst] in Hp; subst; reflexivity.
Qed.

Lemma rdw_012 c : rdw c = 0 \/ rdw c = 1 \/ rdw c = 2.
Proof. unfold InlineModel.rdw. destruct (_ || _); auto. destruct (in_ranges _ _); auto. destruct (zw c); auto. Qed.

Lemma paint_app a b : paint (a ++ b) = paint a ++ paint b.
Proof. apply flat_map_app. Qed.

Lemma mid_line l : forall t0 t y ds, Forall show_ok l -> mid t0 t y ds ->
  Z.of_nat (length (ds ++ paint (visible l))) < W ->
  mid t0 (feeds t (line_cps l)) y (ds ++ paint (visible l)).
Proof.
  induction l as [|i l IH]; intros t0 t y ds Hl Hm Hlen.
  - cbn. rewrite app_nil_r. auto.
  - inversion_clear Hl as [|? ? Hi Hl'].
    change (line_cps (i :: l)) with (item_cps i ++ line_cps l). rewrite RenderEmu.feeds_app.
    change (visible (i :: l)) with (item_chars i ++ visible l) in *. rewrite paint_app, app_assoc in *.
    apply IH; auto. rewrite app_length in Hlen.
    destruct (item_dec i) as [[c ->]|Hn].
    + cbn [InlineEmu.show_ok item_cps item_chars] in *. destruct Hi as (Hs & H32 & H127 & Hcw).
      cbn [TermEmu.feeds fold_left].
      assert (Hf : feed t c = put cw c t).
      { unfold TermEmu.feed. rewrite (m_pst _ _ _ _ Hm). replace (c =? 27) with false by lia.
        replace (c =? 13) with false by lia. replace (c =? 10) with false by lia.
        replace ((c <? 32) || (c =? 127)) with false by lia. reflexivity. }
      rewrite Hf. apply mid_put; auto; [lia|]. rewrite Hcw. apply rdw_012.
    + destruct (feeds_escape i t Hi Hn (m_pst _ _ _ _ Hm)) as [p ->].
      assert (Hv : item_chars i = []) by (destruct i; auto; exfalso; eapply Hn; eauto).
      rewrite Hv in *. cbn [InlineEmu.paint flat_map]. rewrite app_nil_r.
      destruct Hm. constructor; auto.
Qed.

Lemma feeds_el t : pst t = Ground ->
  feeds t erase_right = erase_where t (fun x y => (y =? cy t) && (cx t <=? x)).
Proof. intros Hp. destruct t; cbn [TermEmu.pst] in Hp; subst; reflexivity. Qed.
Lemma feeds_ed t : pst t = Ground ->
  feeds t erase_below = erase_where t (fun x y => (cy t <? y) || ((y =? cy t) && (cx t <=? x))).
Proof. intros Hp. destruct t; cbn [TermEmu.pst] in Hp; subst; reflexivity. Qed.
Lemma feeds_cr t : pst t = Ground -> feeds t [13] = set_cur t 0 (cy t) false.
Proof. intros Hp. destruct t; cbn [TermEmu.pst] in Hp; subst; reflexivity. Qed.
Lemma feeds_crlf t : pst t = Ground -> feeds t crlf = line_feed (set_cur t 0 (cy t) false).
Proof. intros Hp. destruct t; cbn [TermEmu.pst] in Hp; subst; reflexivity. Qed.
Lemma feeds_up t n : pst t = Ground -> 0 < n ->
  feeds t (cursor_up n) = set_cur t (cx t) (Z.max 0 (cy t - n)) false.
Proof.
  intros Hp Hn. unfold cursor_up. replace (n <=? 0) with false by lia.
  change (dec n ++ [65]) with (RenderModel.join59 (map dec [n]) ++ [65]).
  rewrite RenderEmu.feeds_csi; auto; try discriminate; try lia; [|repeat constructor; lia].
  unfold csi, nthp. cbn [nth Z.eqb Pos.eqb]. f_equal. lia.
Qed.

(* ---------- the region ---------- *)
Definition upd (R : nat -> list (Z * ckind)) (i : nat) (v : list (Z * ckind)) : nat -> list (Z * ckind) :=
  fun j => if Nat.eqb j i then v else R j.

Variable g0 : Z -> Z -> tcell.     (* the screen before the program, *)
Variable y0 : Z.                   (* whose cursor was in row [y0] *)

Record scr (t : term) (top : Z) (R : nat -> list (Z * ckind)) (x : Z) (i : nat) : Prop := Scr {
  s_tw : tw t = W; s_th : th t = H; s_pst : pst t = Ground; s_pend : pend t = false;
  s_cx : cx t = x; s_x : 0 <= x < W; s_cy : cy t = top + Z.of_nat i; s_in : top + Z.of_nat i < H;
  s_top : 0 <= top <= y0;
  s_rows : forall j, top + Z.of_nat j < H -> shows (grid t) (top + Z.of_nat j) W (R j);
  s_off : forall j, H <= top + Z.of_nat j -> R j = [];
  s_wf : forall j, wfc (R j);
  s_above : forall x y, 0 <= y < top -> grid t x y = g0 x (y + (y0 - top)) }.

Lemma scr_cr t top R x i : scr t top R x i -> scr (set_cur t 0 (cy t) false) top R 0 i.
Proof. intros []. constructor; auto. lia. Qed.

Lemma cell2_erased t : cell2 (erased t) = blankc.
Proof. reflexivity. Qed.

Lemma nth_nil_blank k : nth k [] blankc = blankc.
Proof. destruct k; reflexivity. Qed.

(** Writing a line at the start of row [i] and erasing the rest of the row. *)
Lemma scr_line t top R i l : scr t top R 0 i -> Forall show_ok l ->
  Z.of_nat (length (paint (visible l))) < W ->
  scr (feeds (feeds t (line_cps l)) erase_right) top (upd R i (paint (visible l)))
      (Z.of_nat (length (paint (visible l)))) i.
Proof.
  intros Hs Hl Hlen. pose proof Hs as [Htw Hth Hpst Hpend Hcx Hx Hcy Hin Htop Hrows Hoff Hwf Habove].
  assert (Hm : mid t t (top + Z.of_nat i) []).
  { constructor; auto; cbn [length]; try lia.
    - intros x Hx'. lia.
    - apply (shows_clean _ _ (R i)); auto. }
  pose proof (mid_line l t t _ [] Hl Hm ltac:(cbn [app]; lia)) as Hm'. cbn [app] in Hm'.
  destruct Hm' as [Mtw Mth Mpst Mpend Mcx Mcy Mfit Msh Mcl Moth].
  set (t' := feeds t (line_cps l)) in *. rewrite feeds_el by auto.
  constructor; auto; cbn [erase_where set_grid tw th pst pend cx cy grid]; try lia.
  - intros j Hj x Hx'. unfold upd. destruct (Nat.eqb_spec j i) as [->|Hne].
    + rewrite Mcy, Mcx, Z.eqb_refl. cbn [andb].
      destruct (Z.of_nat (length (paint (visible l))) <=? x) eqn:E.
      * rewrite cell2_erased, nth_overflow by lia. reflexivity.
      * apply Msh. lia.
    + rewrite Mcy. replace (top + Z.of_nat j =? top + Z.of_nat i) with false by lia. cbn [andb].
      rewrite Moth by lia. apply Hrows; auto.
  - intros j Hj. unfold upd. destruct (Nat.eqb_spec j i) as [->|Hne]; [lia|auto].
  - intros j. unfold upd. destruct (Nat.eqb_spec j i) as [->|Hne]; [|auto].
    split; [lia|apply wkinds_paint].
  - intros x y Hy. rewrite Mcy. replace (y =? top + Z.of_nat i) with false by lia. cbn [andb].
    rewrite Moth by lia. auto.
Qed.

(** Moving to the next row, possibly scrolling. *)
Lemma scr_crlf t top R x i : scr t top R x i -> Z.of_nat (S i) < H ->
  exists top', scr (feeds t crlf) top' R 0 (S i).
Proof.
  intros [Htw Hth Hpst Hpend Hcx Hx Hcy Hin Htop Hrows Hoff Hwf Habove] Hi.
  rewrite feeds_crlf by auto. unfold line_feed.
  destruct t as [tw0 th0 bc g cx0 cyy pd pn ps cv al sv]. cbn [tw th pst pend cx cy grid set_cur set_grid] in *. subst tw0 th0 ps pd cx0 cyy.
  destruct (top + Z.of_nat i + 1 <? H) eqn:E.
  - exists top. constructor; cbn [tw th pst pend cx cy grid set_cur set_grid]; auto; lia.
  - assert (Hbot : top + Z.of_nat i = H - 1) by lia.
    exists (top - 1). constructor; cbn [tw th pst pend cx cy grid set_cur set_grid erased]; auto; try lia.
    + intros j Hj x' Hx'. destruct (top - 1 + Z.of_nat j =? H - 1) eqn:Ej.
      * rewrite cell2_erased, (Hoff j) by lia. rewrite nth_nil_blank. reflexivity.
      * replace (top - 1 + Z.of_nat j + 1) with (top + Z.of_nat j) by lia. apply Hrows; [lia|auto].
    + intros j Hj. apply Hoff. lia.
    + intros x' y Hy. replace (y =? H - 1) with false by lia. rewrite Habove by lia. f_equal. lia.
Qed.

Lemma shows_trunc g y ds k x : shows g y W ds -> 0 <= x < W -> Z.of_nat k <= x -> (length ds <= k)%nat ->
  cell2 (g x y) = blankc.
Proof. intros Hs Hx Hk Hl. rewrite (Hs x Hx). apply nth_overflow. lia. Qed.

(** Erasing below; the cursor is at or after the end of row [i]'s text. *)
Lemma scr_ed t top R x i : scr t top R x i -> Z.of_nat (length (R i)) <= x \/ R i = [] ->
  scr (feeds t erase_below) top (fun j => if (j <=? i)%nat then R j else []) x i.
Proof.
  intros [Htw Hth Hpst Hpend Hcx Hx Hcy Hin Htop Hrows Hoff Hwf Habove] Hle.
  rewrite feeds_ed by auto.
  constructor; auto; cbn [erase_where set_grid tw th pst pend cx cy grid]; try lia.
  - intros j Hj x' Hx'. rewrite Hcy. destruct (j <=? i)%nat eqn:E.
    + replace (top + Z.of_nat i <? top + Z.of_nat j) with false by lia. cbn [orb].
      destruct ((top + Z.of_nat j =? top + Z.of_nat i) && (cx t <=? x')) eqn:E2.
      * assert (j = i) by lia. subst j. rewrite cell2_erased.
        destruct Hle as [Hle| ->]; [rewrite nth_overflow by lia|rewrite nth_nil_blank]; reflexivity.
      * apply Hrows; auto.
    + replace (top + Z.of_nat i <? top + Z.of_nat j) with true by lia. cbn [orb].
      rewrite cell2_erased, nth_nil_blank. reflexivity.
  - intros j Hj. destruct (j <=? i)%nat; auto.
  - intros j. destruct (j <=? i)%nat; auto. split; [cbn; lia|apply wkinds_nil].
  - intros x' y Hy. rewrite Hcy.
    replace (top + Z.of_nat i <? y) with false by lia. cbn [orb].
    replace (y =? top + Z.of_nat i) with false by lia. cbn [andb]. auto.
Qed.

Lemma scr_up t top R x i : scr t top R x i ->
  scr (feeds t (if (1 <? S i)%nat then cursor_up (Z.of_nat (S i) - 1) else [])) top R x 0.
Proof.
  intros Hs. pose proof Hs as [Htw Hth Hpst Hpend Hcx Hx Hcy Hin Htop Hrows Hoff Hwf Habove].
  destruct i as [|i].
  - cbn [Nat.ltb Nat.leb]. exact Hs.
  - cbn [Nat.ltb Nat.leb]. rewrite feeds_up by (auto; lia).
    constructor; auto; cbn [set_cur tw th pst pend cx cy grid]; lia.
Qed.
End Emu.
