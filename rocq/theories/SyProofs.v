(** Lemmas about the style model. *)
From Verif Require Import Prelude Utf8 Text TermEmu SyModel SySpec SyColorProps.

(* ---------- the observer ---------- *)
Lemma obs_app : forall a st p b, obs st p (a ++ b) = let '(o, (st', p')) := obs st p a in let '(o2, e) := obs st' p' b in (o ++ o2, e).
Proof.
  induction a as [|c a IH]; intros st p b; cbn [app obs]; [destruct (obs st p b); reflexivity|].
  destruct st as [| |done cur priv|].
  - destruct (c =? 27); [apply IH|]. rewrite IH. destruct (obs Ground p a) as [o [st' p']]. destruct (obs st' p' b). reflexivity.
  - destruct (c =? 91); apply IH.
  - destruct (is_digit c); [apply IH|]. destruct (c =? 59); [apply IH|]. destruct (_ && _); apply IH.
  - apply IH.
Qed.
Lemma obs_text p t : ~ In 27 t -> obs Ground p t = (paint p t, (Ground, p)).
Proof.
  induction t as [|c t IH]; intros N; [reflexivity|]. cbn [obs]. cbn in N. replace (c =? 27) with false by lia. rewrite IH by tauto. reflexivity.
Qed.
Lemma obs_digits : forall d done cur priv p r, forallb is_digit d = true -> obs (Csi done cur priv) p (d ++ r) = obs (Csi done (undec_acc cur d) priv) p r.
Proof.
  induction d as [|c d IH]; intros done cur priv p r H; [reflexivity|]. cbn [forallb] in H. apply andb_prop in H as [H1 H2]. cbn [app obs]. rewrite H1. rewrite IH by auto. reflexivity.
Qed.
Lemma obs_dec n done priv p r : 0 <= n -> obs (Csi done 0 priv) p (dec n ++ r) = obs (Csi done n priv) p r.
Proof. intros H. destruct (dec_spec n H) as (_ & D & _). rewrite obs_digits by auto. rewrite dec_undec by auto. reflexivity. Qed.
Lemma obs_semi : forall ps done p r, Forall (fun n => 0 <= n) ps -> ps <> [] -> obs (Csi done 0 false) p (semi ps ++ 109 :: r) = obs Ground (sgr (rev done ++ ps) p) r.
Proof.
  induction ps as [|n ps IH]; intros done p r H NE; [congruence|]. inversion_clear H as [|? ? H1 H2]. destruct ps as [|m ps].
  - cbn [semi]. rewrite obs_dec by auto. reflexivity.
  - change (semi (n :: m :: ps)) with (dec n ++ 59 :: semi (m :: ps)). rewrite <- app_assoc. rewrite obs_dec by auto. cbn [app]. change (obs (Csi done n false) p (59 :: semi (m :: ps) ++ 109 :: r)) with (obs (Csi (n :: done) 0 false) p (semi (m :: ps) ++ 109 :: r)).
    rewrite IH by (auto; discriminate). cbn [rev]. rewrite <- app_assoc. reflexivity.
Qed.
Lemma obs_csi ps p r : Forall (fun n => 0 <= n) ps -> ps <> [] -> obs Ground p (csi_m ps ++ r) = obs Ground (sgr ps p) r.
Proof.
  intros H N. unfold csi_m. rewrite <- !app_assoc. change (obs Ground p ([27; 91] ++ semi ps ++ [109] ++ r)) with (obs (Csi [] 0 false) p (semi ps ++ 109 :: r)). rewrite obs_semi by auto. reflexivity.
Qed.
Lemma obs_reset p r : obs Ground p (reset ++ r) = obs Ground pen0 r.
Proof. unfold reset. rewrite obs_csi; [reflexivity|repeat constructor; lia|discriminate]. Qed.
Lemma sgr16 code p : 0 <= code <= 15 -> sgr [if 8 <=? code then 90 + (code - 8) else 30 + code] p = set_fg p (Some (Idx code)) /\ sgr [if 8 <=? code then 100 + (code - 8) else 40 + code] p = set_bg p (Some (Idx code)).
Proof.
  intros H. assert (exists n, (n < 16)%nat /\ code = Z.of_nat n) as (n & N & ->) by (exists (Z.to_nat code); lia).
  do 16 (destruct n as [|n]; [split; reflexivity|]). lia.
Qed.
Lemma obs_fg k c p r : color_ok c -> obs Ground p (to_fg k c ++ r) = obs Ground (set_fg p (look k c)) r.
Proof.
  intros C. destruct (C49_codes_in_range c C) as [R1 R2]. destruct C as (C1 & C2 & C3). destruct k; cbn [to_fg look set_fg]; [reflexivity|..].
  - unfold fg16. rewrite obs_csi; [|repeat constructor; destruct (8 <=? to16 c) eqn:?; lia|discriminate]. destruct (sgr16 (to16 c) p R1) as [-> _]. reflexivity.
  - rewrite obs_csi; [reflexivity|repeat constructor; lia|discriminate].
  - rewrite obs_csi; [reflexivity|repeat constructor; lia|discriminate].
Qed.
Lemma obs_bg k c p r : color_ok c -> obs Ground p (to_bg k c ++ r) = obs Ground (set_bg p (look k c)) r.
Proof.
  intros C. destruct (C49_codes_in_range c C) as [R1 R2]. destruct C as (C1 & C2 & C3). destruct k; cbn [to_bg look set_bg]; [reflexivity|..].
  - unfold bg16. rewrite obs_csi; [|repeat constructor; destruct (8 <=? to16 c) eqn:?; lia|discriminate]. destruct (sgr16 (to16 c) p R1) as [_ ->]. reflexivity.
  - rewrite obs_csi; [reflexivity|repeat constructor; lia|discriminate].
  - rewrite obs_csi; [reflexivity|repeat constructor; lia|discriminate].
Qed.
Lemma obs_border k c p r : color_ok c -> obs Ground p (border_code k c ++ r) = obs Ground (set_fg p (blook k c)) r.
Proof.
  intros C. destruct (C192_border_range c C) as (R1 & R2 & _). destruct C as (C1 & C2 & C3). destruct k; cbn [border_code blook set_fg]; [reflexivity|..].
  - unfold fg16. rewrite obs_csi; [|repeat constructor; destruct (8 <=? border16 c) eqn:?; lia|discriminate]. destruct (sgr16 (border16 c) p R1) as [-> _]. reflexivity.
  - rewrite obs_csi; [reflexivity|repeat constructor; lia|discriminate].
  - rewrite obs_csi; [reflexivity|repeat constructor; lia|discriminate].
Qed.
(* ---------- which characters a laid-out text can contain ---------- *)
Lemma decode_low b r : fst (decode_rune (b :: r)) < 128 -> fst (decode_rune (b :: r)) = b.
Proof.
  cbn [decode_rune]. destruct (b <? 128) eqn:B; [reflexivity|]. assert (RE : rune_error < 128 -> False) by (unfold rune_error; lia).
  destruct (seqlen b =? 1) eqn:E1; [cbn [fst]; tauto|]. destruct r as [|c r]; [cbn [fst]; tauto|]. destruct (ok2 b c) eqn:O; [|cbn [fst negb]; tauto]. cbn [negb].
  unfold ok2, lo2, hi2 in O. unfold seqlen in *.
  destruct ((194 <=? b) && (b <=? 223)) eqn:S2; [cbn [Z.eqb Pos.eqb fst]; destruct (b =? 224) eqn:?, (b =? 240) eqn:?, (b =? 237) eqn:?, (b =? 244) eqn:?; lia|].
  destruct ((224 <=? b) && (b <=? 239)) eqn:S3.
  - cbn [Z.eqb Pos.eqb]. destruct r as [|d r]; [cbn [fst]; tauto|]. destruct (cont d) eqn:D; [|cbn [fst negb]; tauto]. cbn [negb fst]. unfold cont in D. destruct (b =? 224) eqn:?, (b =? 240) eqn:?, (b =? 237) eqn:?, (b =? 244) eqn:?; lia.
  - destruct ((240 <=? b) && (b <=? 244)) eqn:S4; [|discriminate]. cbn [Z.eqb Pos.eqb]. destruct r as [|d r]; [cbn [fst]; tauto|]. destruct (cont d) eqn:D; [|cbn [fst negb]; tauto]. cbn [negb]. destruct r as [|e r]; [cbn [fst]; tauto|]. destruct (cont e) eqn:E; [|cbn [fst negb]; tauto]. cbn [negb fst]. unfold cont in D, E. destruct (b =? 224) eqn:?, (b =? 240) eqn:?, (b =? 237) eqn:?, (b =? 244) eqn:?; lia.
Qed.
Lemma decode_all_low x : x < 128 -> forall f p, In x (decode_all f p) -> In x p.
Proof.
  intros X. induction f as [|f IH]; intros p H; [destruct H|]. destruct p as [|b r]; [destruct H|]. cbn [decode_all] in H. pose proof (decode_low b r) as L. destruct (decode_rune (b :: r)) as [c n]. cbn [fst] in L. destruct H as [->|H].
  - left. symmetry. apply L. exact X.
  - apply IH in H. rewrite <- (firstn_skipn n (b :: r)). apply in_or_app. auto.
Qed.
Lemma enc_low x t : x < 128 -> Forall scalar t -> In x (enc t) -> In x t.
Proof.
  intros X S I. apply in_flat_map in I as (c & C & I). rewrite Forall_forall in S. specialize (S c C). destruct (Z.ltb_spec c 128).
  - unfold enc_rune in I. replace (c <? 128) with true in I by lia. destruct I as [->|[]]. exact C.
  - pose proof (enc_rune_high c ltac:(lia) S) as Q. rewrite Forall_forall in Q. specialize (Q x I). lia.
Qed.
Lemma cut_low x t n : x < 128 -> Forall scalar t -> ~ In x t -> ~ In x (runes_of (firstn n (enc t))).
Proof.
  intros X S N I. apply N. apply (enc_low x t X S). apply (decode_all_low x X) in I. rewrite <- (firstn_skipn n (enc t)). apply in_or_app. auto.
Qed.
Lemma In_join x ls : In x (join_nl ls) -> x = 10 \/ exists l, In l ls /\ In x l.
Proof.
  induction ls as [|l ls IH]; [intros []|]. destruct ls as [|m ls]; [cbn [join_nl]; intros H; right; exists l; cbn; auto|].
  change (join_nl (l :: m :: ls)) with (l ++ 10 :: join_nl (m :: ls)). intros H. apply in_app_or in H as [H|[H|H]]; [right; exists l; cbn; auto|auto|]. apply IH in H as [H|(k & K & I)]; [auto|]. right. exists k. split; [right; auto|auto].
Qed.
Lemma In_split x t l : In l (split_nl t) -> In x l -> In x t.
Proof.
  revert l. induction t as [|c t IH]; intros l H I; cbn [split_nl] in H; [destruct H as [<-|[]]; auto|]. destruct (c =? 10).
  - destruct H as [<-|H]; [destruct I|]. right. eapply IH; eauto.
  - destruct (split_nl t) as [|h r]; [destruct H as [<-|[]]; destruct I as [->|[]]; left; auto|]. destruct H as [<-|H]; [destruct I as [->|I]; [left; auto|right; apply (IH h); cbn; auto]|right; apply (IH l); cbn; auto].
Qed.
Lemma In_rep x c n : In x (rep c n) -> x = c.
Proof. intros H. apply repeat_spec in H. auto. Qed.
Lemma In_repeat_str x s n : In x (repeat_str s n) -> In x s.
Proof. induction n as [|n IH]; cbn [repeat_str]; [intros []|]. intros H. apply in_app_or in H as [H|H]; auto. Qed.
(** A character that is neither a blank, a line break nor part of the border, occurs in the laid-out text only if it does in the text. *)
Lemma align_low sw x s c : x < 128 -> x <> 32 -> x <> 10 -> Forall scalar c -> ~ In x c -> ~ In x (apply_align sw s c).
Proof.
  intros X N32 N10 SC N. unfold apply_align. destruct (salign s) as [[h v]|]; auto. destruct (target (ssize s)) as [tw th].
  assert (HH : forall l w h0, ~ In x l -> Forall scalar l -> ~ In x (align_h sw l w h0)).
  { intros l w h0 NL SL. unfold align_h. destruct (w <? sw l); [apply cut_low; auto|]. destruct (sw l =? w); auto. intros I. destruct h0; repeat (apply in_app_or in I as [I|I]); try apply In_rep in I; auto. }
  assert (VV : forall t h0 v0, ~ In x t -> ~ In x (align_v sw t h0 v0)).
  { intros t h0 v0 NT. unfold align_v. assert (SP : forall l, In l (split_nl t) -> ~ In x l) by (intros l L I; apply NT; eapply In_split; eauto).
    assert (BL : forall k z, ~ (exists l, In l (repeat (rep 32 k) z) /\ In x l)) by (intros k z (l & L & I); apply repeat_spec in L; subst; apply In_rep in I; auto).
    destruct (h0 <? _); [intros I; apply In_join in I as [I|(l & L & I)]; auto; apply (SP l); auto; rewrite <- (firstn_skipn (Z.to_nat h0) (split_nl t)); apply in_or_app; auto|]. destruct (_ =? h0); auto. cbv zeta.
    destruct v0; intros I; apply In_join in I as [I|(l & L & I)]; auto; repeat (apply in_app_or in L as [L|L]); try (eapply SP; eauto; fail); eapply BL; eauto. }
  destruct (_ && _); [|destruct (0 <? tw); [auto|destruct (0 <? th); auto]].
  unfold align_both. apply VV. intros I. apply In_join in I as [I|(l & L & I)]; auto. apply in_map_iff in L as (l0 & <- & L). revert I. apply HH; [intros I; apply N; eapply In_split; eauto|]. rewrite Forall_forall in *. intros y Y. apply SC. eapply In_split; eauto.
Qed.
Lemma spacing_low sw x c p : x <> 32 -> x <> 10 -> ~ In x c -> ~ In x (apply_spacing sw c p).
Proof.
  intros N32 N10 N. unfold apply_spacing. destruct c as [|a c]; auto. cbv zeta. intros I. apply In_join in I as [I|(l & L & I)]; auto. repeat (apply in_app_or in L as [L|L]).
  - apply repeat_spec in L. subst. apply In_rep in I. auto.
  - apply in_map_iff in L as (l0 & <- & L). repeat (apply in_app_or in I as [I|I]); try (apply In_rep in I; auto; fail). apply N. eapply In_split; eauto.
  - apply repeat_spec in L. subst. apply In_rep in I. auto.
Qed.
Lemma border_low sw x s c : x <> 32 -> x <> 10 -> bcolor s = None -> (forall b, bord s = Some b -> ~ border_has b x) -> ~ In x c -> ~ In x (render_border sw s c).
Proof.
  intros N32 N10 BC NB N. unfold render_border. destruct (bord s) as [b|] eqn:E; auto. specialize (NB b eq_refl). unfold border_has in NB. rewrite !in_app_iff in NB. destruct (_ && _); auto.
  intros I. apply In_join in I as [I|(l & L & I)]; auto. unfold border_lines, color_line, color_sides, side in L. rewrite BC in L.
  apply in_app_or in L as [L|L]; [|apply in_app_or in L as [L|L]].
  - destruct (has s (sTop s)); [|destruct L]. destruct L as [<-|[]]. repeat (apply in_app_or in I as [I|I]); try (apply In_repeat_str in I; tauto); destruct (has s _); try destruct I; tauto.
  - apply in_map_iff in L as (l0 & <- & L). repeat (apply in_app_or in I as [I|I]); try (apply In_rep in I; auto; fail); try (destruct (has s _); [tauto|destruct I]). apply N. eapply In_split; eauto.
  - destruct (has s (sBottom s)); [|destruct L]. destruct L as [<-|[]]. repeat (apply in_app_or in I as [I|I]); try (apply In_repeat_str in I; tauto); destruct (has s _); try destruct I; tauto.
Qed.
Lemma laid_out_low sw x s c : x < 128 -> x <> 32 -> x <> 10 -> bcolor s = None -> (forall b, bord s = Some b -> ~ border_has b x) -> Forall scalar c -> ~ In x c -> ~ In x (laid_out sw s c).
Proof.
  intros X N32 N10 BC NB SC N. unfold laid_out, apply_opt. pose proof (align_low sw x s c X N32 N10 SC N) as A.
  assert (B : ~ In x (match pad s with Some p => apply_spacing sw (apply_align sw s c) p | None => apply_align sw s c end)) by (destruct (pad s); [apply spacing_low|]; auto).
  pose proof (border_low sw x s _ N32 N10 BC NB B) as D. destruct (marg s); [apply spacing_low|]; auto.
Qed.
Lemma obs_wrap s t o : colors_ok s -> obs Ground (style_pen s) t = (o, (Ground, style_pen s)) \/ obs Ground (style_pen s) t = (o, (Ground, pen0)) ->
  obs Ground pen0 (apply_deco s (apply_colors s t)) = (o, (Ground, pen0)).
Proof.
  intros (CF & CB & _) H.
  set (cc := match fg s with Some f => to_fg (scap s) f | None => [] end ++ match bg s with Some f => to_bg (scap s) f | None => [] end).
  set (dd := (if bold s then csi_m [1] else []) ++ (if italic s then csi_m [3] else []) ++ (if underline s then csi_m [4] else []) ++ (if strike s then csi_m [9] else [])).
  assert (P : forall r, obs Ground pen0 (dd ++ cc ++ r) = obs Ground (style_pen s) r).
  { intros r. unfold dd. rewrite <- !app_assoc.
    assert (OD : forall (v : bool) n p r, 0 <= n -> obs Ground p ((if v then csi_m [n] else []) ++ r) = obs Ground (if v then sgr [n] p else p) r) by (intros v n p r0 Hn; destruct v; [apply obs_csi; [repeat constructor; lia|discriminate]|reflexivity]).
    rewrite !OD by lia. unfold cc. rewrite <- app_assoc. unfold style_pen.
    destruct (fg s) as [f|]; [rewrite obs_fg by auto|rewrite app_nil_l]; (destruct (bg s) as [b|]; [rewrite obs_bg by auto|]); cbn [app];
    destruct (bold s), (italic s), (underline s), (strike s), (scap s); reflexivity. }
  assert (W : forall x c : list Z, match x with [] => c | _ => x ++ c ++ reset end = x ++ c ++ match x with [] => [] | _ => reset end) by (intros [|x0 x] c; [cbn [app]; rewrite app_nil_r|]; reflexivity).
  unfold apply_colors. fold cc. unfold apply_deco. fold dd. rewrite !W. rewrite <- !app_assoc. rewrite P.
  assert (D0 : dd = [] -> bold s = false /\ italic s = false /\ underline s = false /\ strike s = false) by (unfold dd; destruct (bold s), (italic s), (underline s), (strike s); intros; try discriminate; auto).
  assert (C0 : cc = [] -> (match fg s with Some c => look (scap s) c | None => None end) = None /\ (match bg s with Some c => look (scap s) c | None => None end) = None).
  { unfold cc. intros E. apply app_eq_nil in E as [E1 E2]. destruct (fg s), (bg s), (scap s); try discriminate; auto. }
  clearbody cc dd. clear P W. rewrite obs_app.
  assert (R1 : forall p, obs Ground p reset = ([], (Ground, pen0))) by (intros p; rewrite <- (app_nil_r reset), obs_reset; reflexivity).
  assert (R2 : forall p, obs Ground p (reset ++ reset) = ([], (Ground, pen0))) by (intros p; rewrite obs_reset; apply R1).
  destruct cc as [|c0 cc]; destruct dd as [|d0 dd]; cbn [app]; rewrite ?app_nil_r.
  - destruct (D0 eq_refl) as (D1 & D2 & D3 & D4), (C0 eq_refl) as (C1 & C2). assert (SP : style_pen s = pen0) by (unfold style_pen; rewrite D1, D2, D3, D4, C1, C2; reflexivity).
    destruct H as [H|H]; rewrite H; cbn [obs]; rewrite app_nil_r, ?SP; reflexivity.
  - destruct H as [H|H]; rewrite H, R1, app_nil_r; auto.
  - destruct H as [H|H]; rewrite H, R1, app_nil_r; auto.
  - destruct H as [H|H]; rewrite H, R2, app_nil_r; auto.
Qed.
