(** truncateLine on styled lines (C12). *)
From Verif Require Import Prelude Utf8 InlineModel InlineSpec TruncProofs.

Lemma take_csi_item ps f r : Forall (fun b => 0 <= b < 64 \/ 126 < b) ps -> 64 <= f <= 126 ->
  take_csi (ps ++ f :: r) = (ps ++ [f], r).
Proof.
  intros Hp Hf. induction Hp as [|b ps Hb Hp IH]; cbn [app take_csi].
  - replace ((64 <=? f) && (f <=? 126)) with true by lia. reflexivity.
  - replace ((64 <=? b) && (b <=? 126)) with false by lia. rewrite IH. reflexivity.
Qed.
Lemma take_osc_bel b r : Forall (fun x => x <> 7 /\ x <> 27) b ->
  take_osc (b ++ 7 :: r) = (b ++ [7], r).
Proof.
  induction 1 as [|x b Hx Hb IH]; cbn [app take_osc]; [reflexivity|].
  replace (x =? 7) with false by lia. replace (x =? 27) with false by lia. rewrite IH. reflexivity.
Qed.
Lemma take_osc_st b r : Forall (fun x => x <> 7 /\ x <> 27) b ->
  take_osc (b ++ 27 :: 92 :: r) = (b ++ [27; 92], r).
Proof.
  induction 1 as [|x b Hx Hb IH]; cbn [app take_osc]; [reflexivity|].
  replace (x =? 7) with false by lia. replace (x =? 27) with false by lia. rewrite IH. reflexivity.
Qed.

Lemma take_escape_item i r : item_ok i -> (forall c, i <> Ch c) ->
  exists b, item_bytes i = 27 :: b /\ take_escape (b ++ r) = (b, r).
Proof.
  intros Hok Hn. destruct i as [c|ps f|b|b|c]; cbn [item_ok item_bytes] in *.
  - exfalso. apply (Hn c eq_refl).
  - eexists; split; [reflexivity|]. cbn [app take_escape Z.eqb Pos.eqb].
    rewrite <- app_assoc. cbn [app]. rewrite take_csi_item by tauto. reflexivity.
  - eexists; split; [reflexivity|]. cbn [app take_escape Z.eqb Pos.eqb].
    rewrite <- app_assoc. cbn [app]. rewrite take_osc_bel by tauto. reflexivity.
  - eexists; split; [reflexivity|]. cbn [app take_escape Z.eqb Pos.eqb].
    rewrite <- app_assoc. cbn [app]. rewrite take_osc_st by tauto. reflexivity.
  - eexists; split; [reflexivity|]. cbn [app take_escape].
    replace (c =? 91) with false by lia. replace (c =? 93) with false by lia. reflexivity.
Qed.

Lemma item_dec i : (exists c, i = Ch c) \/ (forall c, i <> Ch c).
Proof. destruct i; [left; eauto|right; discriminate..]. Qed.

Lemma strip_line l : Forall item_ok l -> strip_ansi (line_bytes l) = enc (visible l).
Proof.
  induction 1 as [|i l Hi Hl IH]; [reflexivity|].
  change (line_bytes (i :: l)) with (item_bytes i ++ line_bytes l).
  destruct (item_dec i) as [[c ->]|Hn].
  - cbn [item_bytes item_ok] in *. rewrite strip_app, IH.
    + reflexivity.
    + intros Hin. apply enc_rune_in27 in Hin; tauto.
  - destruct (take_escape_item i (line_bytes l) Hi Hn) as (b & -> & He). cbn [app].
    rewrite strip_esc, He. cbn [snd]. rewrite IH. f_equal. destruct i; auto. exfalso. eapply Hn; eauto.
Qed.

Lemma visible_scalar l : Forall item_ok l -> Forall scalar (visible l).
Proof.
  induction 1 as [|i l Hi Hl IH]; [constructor|]. destruct i; cbn [visible flat_map item_chars item_ok app] in *; auto.
  constructor; tauto.
Qed.

Lemma plain_line l : Forall item_ok l -> plain (line_bytes l) = visible l.
Proof. intros H. unfold plain. rewrite strip_line, runes_of_enc; auto using visible_scalar. Qed.

Section T.
Variable zw : Z -> bool.
Notation rdw := (rdw zw).

Lemma visual_width_line l : Forall item_ok l -> visual_width zw (line_bytes l) = cols rdw (visible l).
Proof. intros H. unfold visual_width. rewrite plain_line; auto. Qed.

Lemma cut_all l : forall room, cols rdw (visible l) <= room -> cut rdw room l = l.
Proof.
  induction l as [|i l IH]; intros room H; [reflexivity|].
  destruct i; cbn [cut visible flat_map item_chars app] in *; try (f_equal; apply IH; exact H).
  cbn [cols fold_right] in H.
  assert (0 <= cols rdw (visible l)).
  { clear. unfold cols. induction (visible l); cbn [fold_right]; [lia|]. pose proof (rdw_nonneg zw a). lia. }
  unfold cols, visible in *. destruct (room <? rdw c) eqn:E; [lia|].
  f_equal. apply IH. lia.
Qed.

Lemma line_bytes_cons i l : line_bytes (i :: l) = item_bytes i ++ line_bytes l.
Proof. reflexivity. Qed.

Lemma item_bytes_ne i : item_bytes i <> [].
Proof. destruct i; cbn; try discriminate. apply enc_rune_ne. Qed.

Lemma trunc_loop_line fuel : forall l w maxw, Forall item_ok l -> (length (line_bytes l) <= fuel)%nat ->
  trunc_loop zw fuel (line_bytes l) w maxw = line_bytes (cut rdw (maxw - w) l).
Proof.
  induction fuel as [|f IH]; intros l w maxw Hl Hf.
  - destruct l as [|i l]; [reflexivity|]. rewrite line_bytes_cons, app_length in Hf.
    pose proof (item_bytes_ne i). destruct (item_bytes i); [congruence|cbn in Hf; lia].
  - destruct l as [|i l]; [reflexivity|]. inversion_clear Hl as [|? ? Hi Hl'].
    rewrite line_bytes_cons in *. rewrite app_length in Hf.
    destruct (item_dec i) as [[c ->]|Hn].
    + cbn [item_ok item_bytes cut] in *. destruct Hi as [Hc Hne].
      assert (Hn27 : ~ In 27 (enc_rune c)) by (intros Hi; apply enc_rune_in27 in Hi; auto).
      pose proof (enc_rune_ne c) as Hne'. pose proof (decode2_enc c (line_bytes l) Hc) as Hd.
      assert (Hwr : write_rune c = enc_rune c) by (unfold write_rune; rewrite fix_id; auto).
      assert (Hsk : skipn (length (enc_rune c)) (enc_rune c ++ line_bytes l) = line_bytes l)
          by (rewrite skipn_app, skipn_all, Nat.sub_diag; reflexivity).
      assert (Hstep : trunc_loop zw (S f) (enc_rune c ++ line_bytes l) w maxw =
        if maxw <? w + rdw c then [] else enc_rune c ++ trunc_loop zw f (line_bytes l) (w + rdw c) maxw).
      { destruct (enc_rune c) as [|e0 e1] eqn:Ee; [congruence|]. cbn [app] in *.
        cbn [trunc_loop]. replace (e0 =? 27) with false by (cbn in Hn27; lia).
        rewrite Hd, Hsk. rewrite Hwr. reflexivity. }
      rewrite Hstep. replace (maxw - w <? rdw c) with (maxw <? w + rdw c) by lia.
      destruct (maxw <? w + rdw c); [reflexivity|]. rewrite line_bytes_cons. cbn [item_bytes].
      f_equal. rewrite IH; auto.
      * f_equal. f_equal. lia.
      * destruct (enc_rune c); [congruence|cbn in Hf; lia].
    + assert (Hcut : cut rdw (maxw - w) (i :: l) = i :: cut rdw (maxw - w) l).
      { destruct i; auto. exfalso. eapply Hn; eauto. }
      rewrite Hcut, line_bytes_cons.
      destruct (take_escape_item i (line_bytes l) Hi Hn) as (b & Hb & He). rewrite Hb in *.
      cbn [app trunc_loop Z.eqb Pos.eqb]. rewrite He. cbn [app]. f_equal. f_equal. apply IH; auto.
      cbn [length] in Hf. lia.
Qed.

Theorem truncate_items l maxw : 0 < maxw -> Forall item_ok l ->
  truncate_line zw (line_bytes l) maxw = line_bytes (cut rdw maxw l).
Proof.
  intros Hm Hl. unfold truncate_line. destruct (maxw <=? 0) eqn:E0; [lia|]. cbn [orb].
  rewrite visual_width_line by auto. destruct (cols rdw (visible l) <=? maxw) eqn:E1.
  - rewrite cut_all by lia. reflexivity.
  - rewrite trunc_loop_line by auto. do 2 f_equal. lia.
Qed.

Lemma cut_cols l : forall room, 0 <= room -> cols rdw (visible (cut rdw room l)) <= room.
Proof.
  induction l as [|i l IH]; intros room Hr; [cbn; lia|].
  destruct i; cbn [cut]; try (apply IH; exact Hr).
  destruct (room <? rdw c) eqn:E; [cbn; lia|]. cbn [visible flat_map item_chars app cols fold_right].
  specialize (IH (room - rdw c) ltac:(lia)). unfold cols, visible in IH. lia.
Qed.
End T.
