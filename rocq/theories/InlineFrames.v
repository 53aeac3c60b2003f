(** Whole histories of the inline renderer (C11). *)
From Verif Require Import Prelude Utf8 TermEmu InlineModel InlineSpec TruncProofs TruncItems InlineEmu.
From Verif Require RenderEmu.

Definition to_icall (c : scall) : icall :=
  match c with SRender v => IRender (view_bytes v) | SRepaint => IRepaint | SResize w h => IResize w h end.

Lemma split_nl_ne s : split_nl s <> [].
Proof. induction s as [|c s IH]; cbn; [discriminate|]. destruct (c =? 10); [discriminate|]. destruct (split_nl s); discriminate. Qed.

Lemma split_nl_app l r : ~ In 10 l ->
  split_nl (l ++ r) = match split_nl r with x :: xs => (l ++ x) :: xs | [] => [l] end.
Proof.
  induction l as [|c l IH]; intros Hn; cbn [app split_nl].
  - destruct (split_nl r) eqn:E; [exfalso; eapply split_nl_ne; eauto|reflexivity].
  - cbn in Hn. replace (c =? 10) with false by lia. rewrite IH by tauto.
    destruct (split_nl r) eqn:E; [exfalso; eapply split_nl_ne; eauto|reflexivity].
Qed.

Lemma split_join ls : ls <> [] -> Forall (fun l => ~ In 10 l) ls -> split_nl (join_nl ls) = ls.
Proof.
  induction ls as [|l ls IH]; intros Hne Hf; [congruence|]. inversion_clear Hf as [|? ? Hl Hls].
  destruct ls as [|l2 ls].
  - cbn [join_nl]. rewrite <- (app_nil_r l) at 1. rewrite split_nl_app by auto. cbn. rewrite app_nil_r. reflexivity.
  - change (join_nl (l :: l2 :: ls)) with (l ++ 10 :: join_nl (l2 :: ls)).
    rewrite split_nl_app by auto. cbn [split_nl Z.eqb Pos.eqb]. rewrite app_nil_r. f_equal.
    apply IH; [discriminate|auto].
Qed.

Lemma clip_keep h (v : list (list item)) : clip h (map line_bytes v) = map line_bytes (keep h v).
Proof.
  unfold clip, keep. rewrite map_length. destruct (_ && _); [|reflexivity].
  generalize (length v - Z.to_nat h)%nat. intros n. revert v. induction n; intros v; [reflexivity|]. destruct v; [reflexivity|]. cbn. auto.
Qed.

Lemma nth_last {A} (l : list A) d : l <> [] -> nth (length l - 1) l d = List.last l d.
Proof.
  induction l as [|a l IH]; intros Hn; [congruence|]. destruct l as [|b l]; [reflexivity|].
  change (List.last (a :: b :: l) d) with (List.last (b :: l) d). rewrite <- IH by discriminate.
  cbn [length]. replace (S (S (length l)) - 1)%nat with (S (S (length l) - 1)) by lia. reflexivity.
Qed.

Definition isenc (b : list Z) : Prop := exists s, Forall scalar s /\ b = enc s.
Lemma isenc_nil : isenc [].
Proof. exists []. auto. Qed.
Lemma isenc_app a b : isenc a -> isenc b -> isenc (a ++ b).
Proof.
  intros (s & Hs & ->) (u & Hu & ->). exists (s ++ u). rewrite enc_app. split; auto. apply Forall_app; auto.
Qed.
Lemma isenc_low a : Forall (fun x => 0 <= x < 128) a -> isenc a.
Proof.
  intros Ha. exists a. split.
  - eapply Forall_impl; [|exact Ha]. cbn. unfold scalar. lia.
  - symmetry. apply (enc_low (fun z => z) (fun _ => false)); auto.
Qed.
Lemma isenc_up n : isenc (cursor_up n).
Proof.
  apply isenc_low. unfold cursor_up. destruct (n <=? 0) eqn:E; [constructor|].
  do 2 (constructor; [lia|]). apply Forall_app. split; [|repeat constructor; lia].
  destruct (dec_spec n ltac:(lia)) as (_ & Hd & _). rewrite Forall_forall. intros x Hx.
  rewrite forallb_forall in Hd. specialize (Hd x Hx). unfold is_digit in Hd. lia.
Qed.

Section Frames.
Variable cw : Z -> Z.
Variable zw : Z -> bool.
Notation rdw := (rdw zw).
Variables (W H : Z).
Hypothesis HW : 1 <= W.
Hypothesis HH : 1 <= H.
Notation show_ok := (show_ok cw rdw).
Notation paint := (paint cw).
Notation fitted := (fitted rdw).
Notation emu := (emu cw).
Notation feeds := (feeds cw).
Variable g0 : Z -> Z -> tcell.
Variable y0 : Z.
Notation scr := (scr W H g0 y0).

Lemma item_no10 i : show_ok i -> ~ In 10 (item_bytes i).
Proof.
  destruct i; cbn [InlineEmu.show_ok item_bytes]; try tauto.
  - intros (Hs & H1 & H2 & H3) Hin. destruct (Z.ltb_spec c 128).
    + unfold enc_rune in Hin. replace (c <? 128) with true in Hin by lia. cbn in Hin. lia.
    + pose proof (enc_rune_high c ltac:(lia) Hs) as Hf. rewrite Forall_forall in Hf. specialize (Hf _ Hin). lia.
  - intros [-> Hf] Hin. rewrite Forall_forall in Hf. cbn in Hin. destruct Hin as [?|[?|Hin]]; try lia.
    apply in_app_or in Hin as [Hin|[?|[]]]; [|lia]. specialize (Hf _ Hin). lia.
  - intros Hf Hin. rewrite Forall_forall in Hf. cbn in Hin. destruct Hin as [?|[?|Hin]]; try lia.
    apply in_app_or in Hin as [Hin|[?|[]]]; [|lia]. specialize (Hf _ Hin). lia.
  - intros Hf Hin. rewrite Forall_forall in Hf. cbn in Hin. destruct Hin as [?|[?|Hin]]; try lia.
    apply in_app_or in Hin as [Hin|[?|[?|[]]]]; try lia. specialize (Hf _ Hin). lia.
Qed.
Lemma line_no10 l : Forall show_ok l -> ~ In 10 (line_bytes l).
Proof.
  induction l as [|i l IH]; intros Hf; [intros []|]. inversion_clear Hf as [|? ? Hi Hl].
  rewrite line_bytes_cons. intros Hin. apply in_app_or in Hin as [Hin|Hin]; [|apply IH; auto].
  eapply item_no10; eauto.
Qed.

Lemma split_view v : v <> [] -> Forall (Forall show_ok) v -> split_nl (view_bytes v) = map line_bytes v.
Proof.
  intros Hne Hf. unfold view_bytes. apply split_join.
  - destruct v; [congruence|discriminate].
  - rewrite Forall_map. eapply Forall_impl; [|exact Hf]. intros l. apply line_no10.
Qed.

Lemma keep_ok h (P : list item -> Prop) v : Forall P v -> Forall P (keep h v).
Proof.
  intros Hf. unfold keep. destruct (_ && _); auto.
  rewrite <- (firstn_skipn (length v - Z.to_nat h) v) in Hf. apply Forall_app in Hf. tauto.
Qed.
Lemma keep_ne h (v : list (list item)) : v <> [] -> keep h v <> [].
Proof.
  intros Hne. unfold keep. destruct ((0 <? h) && (h <? Z.of_nat (length v))) eqn:E; auto.
  intros Hk. apply (f_equal (@length _)) in Hk. rewrite skipn_length in Hk. cbn in Hk. lia.
Qed.

Lemma cut_ok w l : Forall show_ok l -> Forall show_ok (cut rdw w l).
Proof.
  revert w. induction l as [|i l IH]; intros w Hf; [constructor|]. inversion_clear Hf as [|? ? Hi Hl].
  destruct i; cbn [cut]; try (constructor; auto). destruct (w <? rdw c); constructor; auto.
Qed.
Lemma fitted_ok w l : Forall show_ok l -> Forall show_ok (fitted w l).
Proof. intros Hf. unfold InlineSpec.fitted. destruct (0 <? w); auto using cut_ok. Qed.

Lemma ok_items l : Forall show_ok l -> Forall item_ok l.
Proof. intros Hf. eapply Forall_impl; [|exact Hf]. intros i. exact (show_item_ok cw zw i). Qed.

Lemma fitted_bytes w l : Forall show_ok l ->
  (if 0 <? w then truncate_line zw (line_bytes l) w else line_bytes l) = line_bytes (fitted w l).
Proof.
  intros Hf. unfold InlineSpec.fitted. destruct (0 <? w) eqn:E; auto.
  apply truncate_items; [lia|auto using ok_items].
Qed.

(** What a line shows depends only on its bytes. *)
Lemma fitted_same w l l' : Forall show_ok l -> Forall show_ok l' -> line_bytes l = line_bytes l' ->
  visible (fitted w l) = visible (fitted w l').
Proof.
  intros H1 H2 He. rewrite <- (plain_line (fitted w l)), <- (plain_line (fitted w l')) by auto using ok_items, fitted_ok.
  rewrite <- !fitted_bytes by auto. rewrite He. reflexivity.
Qed.

Lemma paint_len l : Forall show_ok l -> Z.of_nat (length (paint (visible l))) = cols rdw (visible l).
Proof.
  induction l as [|i l IH]; intros Hf; [reflexivity|]. inversion_clear Hf as [|? ? Hi Hl]. specialize (IH Hl).
  destruct i; cbn [visible flat_map item_chars app] in *; auto.
  destruct Hi as (_ & _ & _ & Hc). unfold InlineEmu.paint, cols in *. cbn [flat_map fold_right].
  rewrite app_length, Hc. unfold visible in IH. pose proof (rdw_012 zw c) as Hr.
  destruct Hr as [Hr|[Hr|Hr]]; rewrite Hr; cbn [Z.eqb Pos.eqb length]; lia.
Qed.

Lemma scr_ext t top R R' x i : (forall j, R j = R' j) -> scr t top R x i -> scr t top R' x i.
Proof.
  intros He []. constructor; auto; intros; rewrite <- ?He; auto.
Qed.

Definition row (w : Z) (l : list item) := paint (visible (fitted w l)).

Lemma emu_crlf t b : emu t (crlf ++ b) = emu (feeds t crlf) b.
Proof. apply (emu_low cw zw). repeat constructor; lia. Qed.
Lemma emu_el t b : emu t (erase_right ++ b) = emu (feeds t erase_right) b.
Proof. apply (emu_low cw zw). repeat constructor; lia. Qed.

Lemma loop_ok w last ls : forall i t top R rest,
  scr t top R 0 i -> ls <> [] -> Z.of_nat (i + length ls) <= H ->
  Forall (Forall show_ok) ls -> Forall (fun l => cols rdw (visible (fitted w l)) < W) ls ->
  (forall j l, (i <= j)%nat -> nth_error last j = Some (line_bytes l) -> Forall show_ok l -> R j = row w l) ->
  exists t' top' R' x,
    emu t (out_lines zw w last i (map line_bytes ls) ++ rest) = emu t' rest /\
    scr t' top' R' x (i + length ls - 1) /\
    (forall j, (j < i \/ i + length ls <= j)%nat -> R' j = R j) /\
    (forall k, (k < length ls)%nat -> R' (i + k)%nat = row w (nth k ls [])) /\
    (x = Z.of_nat (length (R' (i + length ls - 1)%nat)) \/
     nth_error last (i + length ls - 1) = Some (line_bytes (List.last ls []))).
Proof.
  induction ls as [|l ls IH]; intros i t top R rest Hs Hne Hn Hok Hfit Hskip; [congruence|].
  inversion_clear Hok as [|? ? Hl Hls]. inversion_clear Hfit as [|? ? Hlf Hlsf].
  change (map line_bytes (l :: ls)) with (line_bytes l :: map line_bytes ls).
  cbn [out_lines length] in *.
  assert (Hstep : exists t1 x1 R1,
    (forall b, emu t (match line_at last i with
       | Some l0 => if list_eqb l0 (line_bytes l) then b
                    else (if 0 <? w then truncate_line zw (line_bytes l) w else line_bytes l) ++ erase_right ++ b
       | None => (if 0 <? w then truncate_line zw (line_bytes l) w else line_bytes l) ++ erase_right ++ b end) = emu t1 b) /\
    scr t1 top R1 x1 i /\ (forall j, j <> i -> R1 j = R j) /\ R1 i = row w l /\
    (x1 = Z.of_nat (length (R1 i)) \/ nth_error last i = Some (line_bytes l))).
  { assert (Hwrite : exists t1 x1 R1,
      (forall b, emu t ((if 0 <? w then truncate_line zw (line_bytes l) w else line_bytes l) ++ erase_right ++ b) = emu t1 b) /\
      scr t1 top R1 x1 i /\ (forall j, j <> i -> R1 j = R j) /\ R1 i = row w l /\ x1 = Z.of_nat (length (R1 i))).
    { eexists _, _, (upd R i (row w l)). split; [|split; [|split; [|split]]].
      - intros b. rewrite fitted_bytes by auto.
        destruct (line_enc cw zw (fitted w l) (fitted_ok w l Hl)) as [E1 E2]. rewrite E1, emu_enc by auto.
        rewrite emu_el. reflexivity.
      - apply (scr_line cw zw); auto using fitted_ok. rewrite paint_len by auto using fitted_ok. lia.
      - intros j Hj. unfold upd. destruct (Nat.eqb_spec j i); [congruence|auto].
      - unfold upd. rewrite Nat.eqb_refl. reflexivity.
      - unfold upd. rewrite Nat.eqb_refl. reflexivity. }
    unfold line_at. destruct (nth_error last i) as [l0|] eqn:Elast.
    - destruct (list_eqb l0 (line_bytes l)) eqn:Eeq.
      + apply list_eqb_eq in Eeq. subst l0. exists t, 0, R. split; [auto|]. split; [auto|]. split; [auto|].
        split; [apply Hskip; auto|auto].
      + destruct Hwrite as (t1 & x1 & R1 & A & B & C & D & E). exists t1, x1, R1. auto 6.
    - destruct Hwrite as (t1 & x1 & R1 & A & B & C & D & E). exists t1, x1, R1. auto 6. }
  destruct Hstep as (t1 & x1 & R1 & Hemu & Hs1 & Hoth & Hrow & Hx1).
  destruct ls as [|l2 ls].
  - cbn [map app out_lines length List.last]. exists t1, top, R1, x1. replace (i + 1 - 1)%nat with i by lia.
    split; [|split; [|split; [|split]]]; auto.
    + rewrite <- Hemu. destruct (line_at last i) as [l0|]; [destruct (list_eqb _ _)|]; rewrite <- ?app_assoc; reflexivity.
    + intros j Hj. apply Hoth. lia.
    + intros k Hk. replace k with 0%nat by lia. rewrite Nat.add_0_r. auto.
  - cbn [map]. change (line_bytes l2 :: map line_bytes ls) with (map line_bytes (l2 :: ls)) in *.
    assert (Hcrlf : exists top2, scr (feeds t1 crlf) top2 R1 0 (S i))
      by (eapply (scr_crlf cw zw); eauto; cbn [length] in Hn; lia).
    destruct Hcrlf as (top2 & Hs2).
    destruct (IH (S i) (feeds t1 crlf) top2 R1 rest Hs2 ltac:(discriminate) ltac:(cbn [length] in *; lia) Hls Hlsf)
      as (t' & top' & R' & x & He & Hs' & Ho' & Hr' & Hx').
    { intros j l' Hj Hnth Hok'. rewrite Hoth by lia. apply Hskip; auto. lia. }
    exists t', top', R', x. split; [|split; [|split; [|split]]].
    + rewrite <- He, <- emu_crlf, <- Hemu.
      destruct (line_at last i) as [l0|]; [destruct (list_eqb _ _)|]; rewrite <- ?app_assoc; reflexivity.
    + replace (i + S (length (l2 :: ls)) - 1)%nat with (S i + length (l2 :: ls) - 1)%nat by lia. auto.
    + intros j Hj. rewrite Ho' by lia. apply Hoth. lia.
    + intros k Hk. destruct k as [|k].
      * rewrite Nat.add_0_r. rewrite Ho' by lia. cbn [nth]. auto.
      * replace (i + S k)%nat with (S i + k)%nat by lia. cbn [nth]. apply Hr'. lia.
    + replace (i + S (length (l2 :: ls)) - 1)%nat with (S i + length (l2 :: ls) - 1)%nat by lia.
      change (List.last (l :: l2 :: ls) []) with (List.last (l2 :: ls) []). auto.
Qed.

(** The histories covered. [cached] is false when Repaint/Resize dropped the diff cache;
    [prev] are the lines of the previous view. *)
Fixpoint adm (w h : Z) (cached : bool) (prev : list (list item)) (cs : list scall) : Prop :=
  match cs with
  | [] => True
  | SRepaint :: r => adm w h false prev r
  | SResize w' h' :: r => adm w' h' false prev r
  | SRender v :: r =>
      let ls := keep h v in
      v <> [] /\ Forall (Forall show_ok) v /\
      Z.of_nat (length ls) <= H /\ Forall (fun l => cols rdw (visible (fitted w l)) < W) ls /\
      (cached = false -> prev <> [] -> view_bytes v <> []) /\
      (cached = true -> (length ls < length prev)%nat ->
         visible (fitted w (List.last ls [])) = [] \/
         line_bytes (List.last ls []) <> line_bytes (nth (length ls - 1) prev [])) /\
      adm w h true ls r
  end.

Record inv (r : irend) (t : term) (w h : Z) (cached : bool) (prev cur : list (list item)) (top : Z) : Prop := Inv {
  v_scr : scr t top (fun j => paint (visible (nth j cur []))) 0 (pred (length prev));
  v_w : iw r = w; v_h : ih r = h; v_n : nrend r = length prev; v_len : length cur = length prev;
  v_ok : Forall (Forall show_ok) prev;
  v_cache : if cached then prev <> [] /\ cur = map (fitted w) prev /\ last_lines r = map line_bytes prev /\
                           clip h (split_nl (last_view r)) = last_lines r
            else last_view r = [] /\ last_lines r = [] }.

Lemma nth_cur_ext w a b j : map line_bytes a = map line_bytes b -> Forall (Forall show_ok) a -> Forall (Forall show_ok) b ->
  visible (nth j (map (fitted w) a) []) = visible (nth j (map (fitted w) b) []).
Proof.
  revert b j. induction a as [|x a IH]; intros [|y b] j He Ha Hb; try discriminate; [reflexivity|].
  cbn [map] in He. injection He as H1 H2. inversion_clear Ha. inversion_clear Hb.
  destruct j; cbn [map nth]; auto. apply fitted_same; auto.
Qed.

Lemma render_ok r t w h cached prev cur top v : inv r t w h cached prev cur top ->
  adm w h cached prev [SRender v] ->
  exists top', inv (fst (irender zw r (view_bytes v))) (emu t (snd (irender zw r (view_bytes v))))
    w h true (keep h v) (map (fitted w) (keep h v)) top'.
Proof.
  intros [Hs Hw Hh Hn Hlen Hok Hc] (Hne & Hv & HlsH & Hfit & Hempty & Hshrink & _).
  set (ls := keep h v) in *.
  assert (Hlsok : Forall (Forall show_ok) ls) by (apply keep_ok; auto).
  assert (Hlsne : ls <> []) by (apply keep_ne; auto).
  assert (Hclip : clip h (split_nl (view_bytes v)) = map line_bytes ls).
  { rewrite split_view by auto. apply clip_keep. }
  unfold irender. rewrite Hh, Hw, Hn.
  destruct (list_eqb (view_bytes v) (last_view r) && (0 <? Z.of_nat (length prev))) eqn:Eskip.
  - apply andb_prop in Eskip as [Eq Epos]. apply list_eqb_eq in Eq.
    assert (Hprev : prev <> []) by (destruct prev; [cbn in Epos; lia|discriminate]).
    cbn [fst snd]. rewrite emu_nil.
    destruct cached; [|exfalso; destruct Hc as [Hc _]; apply Hempty; auto; congruence].
    destruct Hc as (_ & Hcur & Hll & Hlv). rewrite <- Eq, Hclip, Hll in Hlv.
    assert (Hll' : length ls = length prev) by (rewrite <- (map_length line_bytes ls), Hlv, map_length; auto).
    exists top. constructor; auto.
    + rewrite Hll'. eapply scr_ext; [|exact Hs]. intros j. cbn beta. f_equal. rewrite Hcur. apply nth_cur_ext; auto.
    + rewrite Hll'. auto.
    + rewrite map_length. auto.
    + split; auto. split; auto. split; [rewrite Hll; auto|]. rewrite <- Eq, Hclip. congruence.
  - cbn [fst snd]. rewrite Hclip, map_length. clear Eskip.
    set (up := if (1 <? length prev)%nat then cursor_up (Z.of_nat (length prev) - 1) else []).
    set (R := fun j => paint (visible (nth j cur []))) in *.
    assert (Hup : exists t1, (forall b, emu t (up ++ [13] ++ b) = emu t1 b) /\ scr t1 top R 0 0).
    { exists (feeds (feeds t up) [13]). split.
      - intros b. rewrite (emu_low cw zw).
        + change [13] with (enc [13]) at 1. rewrite emu_enc by (repeat constructor; unfold scalar; lia). reflexivity.
        + unfold up, cursor_up. destruct (1 <? length prev)%nat; [|constructor].
          destruct (_ <=? 0) eqn:E; [constructor|]. do 2 (constructor; [lia|]). apply Forall_app.
          split; [|repeat constructor; lia].
          destruct (dec_spec (Z.of_nat (length prev) - 1) ltac:(lia)) as (_ & Hd & _).
          rewrite Forall_forall. intros x Hx.
          rewrite forallb_forall in Hd. specialize (Hd x Hx). unfold is_digit in Hd. lia.
      - assert (Hup1 : scr (feeds t up) top R 0 0).
        { unfold up. destruct prev as [|p0 prev']; [exact Hs|]. cbn [length Nat.pred] in *.
          apply (scr_up cw zw); auto. }
        pose proof (s_pst _ _ _ _ _ _ _ _ _ Hup1) as Hp.
        rewrite feeds_cr by auto. eapply scr_cr; eauto. }
    destruct Hup as (t1 & He1 & Hs1).
    rewrite He1.
    destruct (loop_ok w (last_lines r) ls 0 t1 top R
       ((if (length ls <? length prev)%nat then erase_below else []) ++ [13]) Hs1 Hlsne ltac:(cbn; lia) Hlsok Hfit)
      as (t' & top' & R' & x & He & Hs' & Ho' & Hr' & Hx').
    { intros j l _ Hnth Hl. destruct cached; [|destruct Hc as [_ Hc]; rewrite Hc in Hnth; destruct j; discriminate].
      destruct Hc as (_ & Hcur & Hll & _). rewrite Hll in Hnth. unfold R, row. rewrite Hcur. f_equal.
      rewrite nth_error_map in Hnth. destruct (nth_error prev j) as [p|] eqn:Ep; [|discriminate].
      cbn [option_map] in Hnth. apply some_inj in Hnth.
      assert (Hpok : Forall show_ok p) by (rewrite Forall_forall in Hok; apply Hok; eapply nth_error_In; eauto).
      rewrite (nth_indep _ [] (fitted w [])) by (rewrite map_length; apply nth_error_Some; congruence).
      rewrite map_nth. rewrite (nth_error_nth prev j [] Ep). apply fitted_same; auto. }
    rewrite He. cbn [Nat.add] in *.
    assert (Hlast : forall j, (j < length ls)%nat -> R' j = paint (visible (nth j (map (fitted w) ls) []))).
    { intros j Hj. rewrite (Hr' j Hj). unfold row. f_equal. f_equal.
      rewrite (nth_indep (map (fitted w) ls) [] (fitted w [])) by (rewrite map_length; auto). rewrite map_nth. reflexivity. }
    assert (Hlen1 : (0 < length ls)%nat) by (destruct ls; [congruence|cbn; lia]).
    assert (Hfin : exists t2 R2, emu t' ((if (length ls <? length prev)%nat then erase_below else []) ++ [13]) = emu t2 [13] /\
       scr t2 top' R2 x (length ls - 1) /\ (forall j, R2 j = paint (visible (nth j (map (fitted w) ls) [])))).
    { destruct (length ls <? length prev)%nat eqn:Eshr.
      - exists (feeds t' erase_below), (fun j => if (j <=? length ls - 1)%nat then R' j else []).
        split; [apply (emu_low cw zw); repeat constructor; lia|]. split.
        + apply scr_ed; auto. destruct Hx' as [->|Hx']; [left; lia|right].
          destruct cached; [|destruct Hc as [_ Hc]; rewrite Hc in Hx'; destruct (length ls - 1)%nat; discriminate].
          destruct Hc as (_ & _ & Hll & _). rewrite Hll, nth_error_map in Hx'.
          destruct (Hshrink eq_refl ltac:(lia)) as [Hvis|Hdiff].
          * rewrite Hr' by lia. unfold row. replace (nth (length ls - 1) ls []) with (List.last ls []).
            -- rewrite Hvis. reflexivity.
            -- symmetry. apply nth_last; auto.
          * exfalso. apply Hdiff. destruct (nth_error prev (length ls - 1)) as [p|] eqn:Ep; [|discriminate].
            cbn [option_map] in Hx'. apply some_inj in Hx'. rewrite (nth_error_nth prev _ [] Ep). auto.
        + intros j. destruct (j <=? length ls - 1)%nat eqn:Ej; [apply Hlast; lia|].
          rewrite nth_overflow by (rewrite map_length; lia). reflexivity.
      - exists t', R'. split; [reflexivity|]. split; [auto|]. intros j.
        destruct (Nat.ltb_spec j (length ls)); [apply Hlast; auto|].
        rewrite (Ho' j) by lia. unfold R. rewrite (nth_overflow cur) by lia. rewrite (nth_overflow (map (fitted w) ls)) by (rewrite map_length; lia). reflexivity. }
    destruct Hfin as (t2 & R2 & He2 & Hs2 & Hr2). rewrite He2.
    exists top'. constructor; cbn [iw ih nrend last_lines last_view]; auto.
    + change [13] with (enc [13]). rewrite <- (app_nil_r (enc [13])).
      rewrite emu_enc by (repeat constructor; unfold scalar; lia). rewrite emu_nil.
      rewrite feeds_cr by (destruct Hs2; auto). apply (scr_cr cw zw W H HW) in Hs2.
      replace (pred (length ls)) with (length ls - 1)%nat by lia.
      eapply scr_ext; [|exact Hs2]. intros j. apply Hr2.
    + rewrite map_length. reflexivity.
Qed.

Lemma isenc_line w l : Forall show_ok l ->
  isenc (if 0 <? w then truncate_line zw (line_bytes l) w else line_bytes l).
Proof.
  intros Hl. rewrite fitted_bytes by auto.
  destruct (line_enc cw zw (fitted w l) (fitted_ok w l Hl)) as [-> E2]. eexists; eauto.
Qed.
Lemma isenc_out w last ls : forall i, Forall (Forall show_ok) ls -> isenc (out_lines zw w last i (map line_bytes ls)).
Proof.
  assert (Hcr : isenc crlf) by (apply isenc_low; repeat constructor; lia).
  assert (Hel : isenc erase_right) by (apply isenc_low; repeat constructor; lia).
  induction ls as [|l ls IH]; intros i Hf; [apply isenc_nil|]. inversion_clear Hf as [|? ? Hl Hls].
  cbn [map out_lines].
  assert (Hnl : isenc (match map line_bytes ls with [] => [] | _ => crlf end))
    by (destruct ls; [apply isenc_nil|exact Hcr]).
  pose proof (isenc_line w l Hl) as Hline. specialize (IH (S i) Hls).
  destruct (line_at last i); [destruct (list_eqb _ _)|]; auto using isenc_app.
Qed.
Lemma isenc_render r v : v <> [] -> Forall (Forall show_ok) v -> isenc (snd (irender zw r (view_bytes v))).
Proof.
  intros Hne Hv. unfold irender. destruct (_ && _); [apply isenc_nil|]. cbn [snd].
  rewrite split_view, clip_keep by auto.
  assert (isenc [13]) by (apply isenc_low; repeat constructor; lia).
  assert (isenc erase_below) by (apply isenc_low; repeat constructor; lia).
  apply isenc_app; [destruct (1 <? _)%nat; [apply isenc_up|apply isenc_nil]|].
  apply isenc_app; [auto|]. apply isenc_app; [apply isenc_out, keep_ok; auto|].
  apply isenc_app; [|auto]. destruct (_ <? _)%nat; [auto|apply isenc_nil].
Qed.

Lemma emu_app t a b : isenc a -> emu t (a ++ b) = emu (emu t a) b.
Proof.
  intros (s & Hs & ->). rewrite emu_enc by auto. f_equal.
  rewrite <- (app_nil_r (enc s)). rewrite emu_enc by auto. reflexivity.
Qed.

Lemma inv_calls cs : forall r t w h cached prev cur top,
  inv r t w h cached prev cur top -> adm w h cached prev cs ->
  exists cached' prev' top' w' h',
    inv (fst (do_icalls zw r (map to_icall cs))) (emu t (snd (do_icalls zw r (map to_icall cs))))
      w' h' cached' prev' (displayed rdw w h cur cs) top'.
Proof.
  induction cs as [|c cs IH]; intros r t w h cached prev cur top Hi Ha.
  - cbn. exists cached, prev, top, w, h. exact Hi.
  - cbn [map do_icalls]. destruct c as [v| |w' h']; cbn [to_icall do_icall displayed].
    + destruct Ha as (A1 & A2 & A3 & A4 & A5 & A6 & A7).
      destruct (render_ok r t w h cached prev cur top v Hi) as (top' & Hi').
      { cbn [adm]. auto 8. }
      pose proof (isenc_render r v A1 A2) as He.
      destruct (irender zw r (view_bytes v)) as [r1 o1]. cbn [fst snd] in *.
      destruct (IH _ _ _ _ _ _ _ _ Hi' A7) as (c' & p' & t' & w' & h' & Hfin).
      destruct (do_icalls zw r1 (map to_icall cs)) as [r2 o2]. cbn [fst snd] in *.
      exists c', p', t', w', h'. rewrite emu_app by auto. exact Hfin.
    + destruct (IH (irepaint r) t w h false prev cur top) as (c' & p' & t' & w' & h' & Hfin); auto.
      { destruct Hi as [B1 B2 B3 B4 B5 B6 B7]. constructor; auto. }
      destruct (do_icalls zw (irepaint r) (map to_icall cs)) as [r2 o2]. cbn [fst snd app] in *. eauto 8.
    + destruct (IH (iresize r w' h') t w' h' false prev cur top) as (c' & p' & t' & w2 & h2 & Hfin); auto.
      { destruct Hi as [B1 B2 B3 B4 B5 B6 B7]. constructor; auto. }
      destruct (do_icalls zw (iresize r w' h') (map to_icall cs)) as [r2 o2]. cbn [fst snd app] in *. eauto 8.
Qed.
End Frames.

(** The whole history, from a terminal with the cursor at the start of row [y0] and
    blank rows from there on. *)
Theorem inline_shows cw zw W H t w h cs :
  1 <= W -> tw t = W -> th t = H -> pst t = Ground -> pend t = false -> cx t = 0 -> 0 <= cy t < H ->
  (forall x y, 0 <= x < W -> cy t <= y < H -> cell2 (grid t x y) = blankc) ->
  adm cw zw W H w h false [] cs ->
  let frame := displayed (rdw zw) w h [] cs in
  let t' := emu cw t (snd (do_icalls zw (new_inline w h) (map to_icall cs))) in
  exists top, 0 <= top <= cy t /\
    cx t' = 0 /\ cy t' = top + Z.of_nat (pred (length frame)) /\ cy t' < H /\
    (forall j x, 0 <= x < W -> top + Z.of_nat j < H ->
       cell2 (grid t' x (top + Z.of_nat j)) = nth (Z.to_nat x) (paint cw (visible (nth j frame []))) blankc) /\
    (forall x y, 0 <= y < top -> grid t' x y = grid t x (y + (cy t - top))).
Proof.
  intros HW Htw Hth Hpst Hpend Hcx Hcy Hblank Hadm frame t'.
  assert (HH : 1 <= H) by lia.
  destruct (inv_calls cw zw W H HW (grid t) (cy t) cs (new_inline w h) t w h false [] [] (cy t))
    as (c' & p' & top & w' & h' & Hi); auto.
  - constructor; auto.
    constructor; auto; try lia; cbn [length pred].
    + cbn. lia.
    + cbn. lia.
    + intros j Hj x Hx. rewrite Hblank by lia. replace (paint cw (visible (nth j [] []))) with (@nil (Z * ckind)) by (destruct j; reflexivity). rewrite nth_nil_blank. reflexivity.
    + intros j _. destruct j; reflexivity.
    + intros j. replace (paint cw (visible (nth j [] []))) with (@nil (Z * ckind)) by (destruct j; reflexivity).
      split; [cbn; lia|apply wkinds_nil].
    + intros x y Hy. f_equal. lia.
  - destruct Hi as [Hs _ _ _ Hlen _ _]. exists top.
    destruct Hs as [S1 S2 S3 S4 S5 S6 S7 S8 S9 S10 S11 S12 S13].
    fold frame in Hlen. rewrite <- Hlen in *. unfold t'.
    split; [auto|]. split; [auto|]. split; [auto|]. split; [lia|]. split; [|auto].
    intros j x Hx Hj. apply S10; auto.
Qed.
