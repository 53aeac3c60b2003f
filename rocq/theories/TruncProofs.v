(** Proofs about stripANSI / visualWidth / truncateLine (C12). *)
From Verif Require Import Prelude Utf8 InlineModel.

(* ---------- escapes ---------- *)
Lemma take_csi_app s p q : take_csi s = (p, q) -> s = p ++ q.
Proof.
  revert p q. induction s as [|c r IH]; intros p q; cbn [take_csi].
  - intros H; injection H as <- <-; reflexivity.
  - destruct (_ && _).
    + intros H; injection H as <- <-; reflexivity.
    + destruct (take_csi r) as [p' q']. intros H; injection H as <- <-. cbn. f_equal. auto.
Qed.

Lemma take_osc_app s p q : take_osc s = (p, q) -> s = p ++ q.
Proof.
  revert p q. induction s as [|c r IH]; intros p q; cbn [take_osc].
  - intros H; injection H as <- <-; reflexivity.
  - destruct (c =? 7).
    + intros H; injection H as <- <-; reflexivity.
    + destruct (c =? 27).
      * destruct r as [|d r']; [|destruct (d =? 92)]; intros H; injection H as <- <-; reflexivity.
      * destruct (take_osc r) as [p' q']. intros H; injection H as <- <-. cbn. f_equal. auto.
Qed.

Lemma take_escape_app s p q : take_escape s = (p, q) -> s = p ++ q.
Proof.
  unfold take_escape. destruct s as [|n r].
  - intros H; injection H as <- <-; reflexivity.
  - destruct (n =? 91).
    + destruct (take_csi r) as [p' q'] eqn:E. intros H; injection H as <- <-.
      cbn. f_equal. apply take_csi_app; auto.
    + destruct (n =? 93).
      * destruct (take_osc r) as [p' q'] eqn:E. intros H; injection H as <- <-.
        cbn. f_equal. apply take_osc_app; auto.
      * intros H; injection H as <- <-; reflexivity.
Qed.

(** An escape sequence is recognised again in front of any compatible continuation. *)
Definition compat (q q' : list Z) : Prop :=
  (q = [] -> q' = []) /\ (hd_error q' = Some 92 -> hd_error q = Some 92).

Lemma take_csi_replay s p q q' : take_csi s = (p, q) -> (q = [] -> q' = []) ->
  take_csi (p ++ q') = (p, q').
Proof.
  revert p q. induction s as [|c r IH]; intros p q; cbn [take_csi].
  - intros H Hq; injection H as <- <-. rewrite Hq by auto. reflexivity.
  - destruct (_ && _) eqn:E.
    + intros H Hq; injection H as <- <-. cbn. rewrite E. reflexivity.
    + destruct (take_csi r) as [p' q0]. intros H Hq; injection H as <- <-. cbn. rewrite E.
      rewrite (IH p' q0 eq_refl Hq). reflexivity.
Qed.

Lemma take_osc_replay s p q q' : take_osc s = (p, q) -> compat q q' ->
  take_osc (p ++ q') = (p, q').
Proof.
  intros H [Hn Hh]. revert p q H Hn Hh. induction s as [|c r IH]; intros p q; cbn [take_osc].
  - intros H Hn Hh; injection H as <- <-. rewrite Hn by auto. reflexivity.
  - destruct (c =? 7) eqn:E7.
    + intros H Hn Hh; injection H as <- <-. cbn. rewrite E7. reflexivity.
    + destruct (c =? 27) eqn:E27.
      * destruct r as [|d r']; [|destruct (d =? 92) eqn:E92]; intros H Hn Hh; injection H as <- <-; cbn [app take_osc]; rewrite E7, E27.
        -- rewrite Hn by auto. reflexivity.
        -- rewrite E92. reflexivity.
        -- destruct q' as [|d' q']; [reflexivity|]. destruct (d' =? 92) eqn:E; [|reflexivity].
           assert (d' = 92) by lia. subst d'. specialize (Hh eq_refl). cbn in Hh. injection Hh as ->.
           discriminate.
      * destruct (take_osc r) as [p' q0]. intros H Hn Hh; injection H as <- <-.
        cbn [app take_osc]. rewrite E7, E27, (IH p' q0 eq_refl Hn Hh). reflexivity.
Qed.

Lemma take_escape_replay s p q q' : take_escape s = (p, q) -> compat q q' ->
  take_escape (p ++ q') = (p, q').
Proof.
  intros H Hc. unfold take_escape in H. destruct s as [|n r].
  - injection H as <- <-. destruct Hc as [Hn _]. rewrite Hn by auto. reflexivity.
  - destruct (n =? 91) eqn:E91.
    + destruct (take_csi r) as [p' q0] eqn:E. injection H as <- <-. cbn [app take_escape].
      rewrite E91, (take_csi_replay _ _ _ _ E (proj1 Hc)). reflexivity.
    + destruct (n =? 93) eqn:E93.
      * destruct (take_osc r) as [p' q0] eqn:E. injection H as <- <-. cbn [app take_escape].
        rewrite E91, E93, (take_osc_replay _ _ _ _ E Hc). reflexivity.
      * injection H as <- <-. cbn [app take_escape]. rewrite E91, E93. reflexivity.
Qed.

Lemma take_escape_len s : (length (snd (take_escape s)) <= length s)%nat.
Proof.
  destruct (take_escape s) as [p q] eqn:E. apply take_escape_app in E. subst. cbn.
  rewrite app_length. lia.
Qed.

(* ---------- strip ---------- *)
Lemma strip_fuel f1 : forall f2 s, (length s <= f1)%nat -> (length s <= f2)%nat ->
  strip_loop f1 s = strip_loop f2 s.
Proof.
  induction f1 as [|f1 IH]; intros f2 s H1 H2.
  - destruct s; [destruct f2; reflexivity|cbn in H1; lia].
  - destruct s as [|c r]; [destruct f2; reflexivity|]. destruct f2 as [|f2]; [cbn in H2; lia|].
    cbn [strip_loop length] in *. pose proof (take_escape_len r).
    destruct (c =? 27); [apply IH; lia|]. f_equal. apply IH; lia.
Qed.

Lemma strip_nil : strip_ansi [] = [].
Proof. reflexivity. Qed.
Lemma strip_esc r : strip_ansi (27 :: r) = strip_ansi (snd (take_escape r)).
Proof.
  unfold strip_ansi. cbn [length strip_loop Z.eqb Pos.eqb]. pose proof (take_escape_len r).
  apply strip_fuel; lia.
Qed.
Lemma strip_cons c r : c <> 27 -> strip_ansi (c :: r) = c :: strip_ansi r.
Proof.
  intros H. unfold strip_ansi. cbn [length strip_loop]. replace (c =? 27) with false by lia. reflexivity.
Qed.
Lemma strip_app a b : ~ In 27 a -> strip_ansi (a ++ b) = a ++ strip_ansi b.
Proof.
  induction a as [|c a IH]; intros H; [reflexivity|]. cbn [app]. cbn in H.
  rewrite strip_cons by (intros ->; tauto). f_equal. apply IH. tauto.
Qed.

(* ---------- walking a string ---------- *)
(** Visible runes met when walking the string with the repository's decoder. *)
Fixpoint vis (fuel : nat) (s : list Z) : list Z :=
  match fuel, s with
  | O, _ => []
  | _, [] => []
  | S f, c :: r =>
      if c =? 27 then vis f (snd (take_escape r))
      else let '(ru, n) := decode2 s in fix_rune ru :: vis f (skipn n s)
  end.

(** No multi-byte sequence decodes to an ASCII character (true of valid UTF-8). *)
Definition no_overlong (s : list Z) : Prop :=
  forall i, let '(r, n) := decode2 (skipn i s) in (1 < n)%nat -> 128 <= r.

Lemma no_overlong_skip s n : no_overlong s -> no_overlong (skipn n s).
Proof.
  intros H i. specialize (H (i + n)%nat). rewrite Nat.add_comm in H.
  replace (skipn i (skipn n s)) with (skipn (n + i) s); auto.
  clear H. revert s. induction n; intros s; cbn; auto. destruct s; cbn; auto. destruct i; auto.
Qed.

Lemma no_overlong_app p q : no_overlong (p ++ q) -> no_overlong q.
Proof.
  intros H. replace q with (skipn (length p) (p ++ q)); [apply no_overlong_skip; auto|].
  rewrite skipn_app, skipn_all, Nat.sub_diag. reflexivity.
Qed.

Lemma decode2_size s : (1 <= snd (decode2 s))%nat /\ (s <> [] -> snd (decode2 s) <= length s)%nat.
Proof.
  unfold decode2. destruct s as [|b r]; [cbn; split; [lia|congruence]|].
  destruct (b <? 128); [cbn; lia|].
  destruct (_ && _).
  { destruct r as [|c r]; [cbn; lia|]. destruct (cont c); cbn; lia. }
  destruct (_ && _).
  { destruct r as [|c [|d r]]; try (cbn; lia). destruct (cont c && cont d); cbn; lia. }
  destruct (_ && _).
  { destruct r as [|c [|d [|e r]]]; try (cbn; lia). destruct (cont c && cont d && cont e); cbn; lia. }
  cbn; lia.
Qed.

Lemma decode2_one s r n : s <> [] -> decode2 s = (r, n) -> n = 1%nat -> hd_error s = Some r \/ r = rune_error.
Proof.
  unfold decode2. destruct s as [|b t]; [congruence|]. intros _.
  destruct (b <? 128). { intros H; injection H as -> <-. auto. }
  destruct (_ && _).
  { destruct t as [|c t]; [|destruct (cont c)]; intros H; injection H as <- <-; auto; intros; lia. }
  destruct (_ && _).
  { destruct t as [|c [|d t]]; try (intros H; injection H as <- <-; auto).
    destruct (cont c && cont d); intros H; injection H as <- <-; auto; lia. }
  destruct (_ && _).
  { destruct t as [|c [|d [|e t]]]; try (intros H; injection H as <- <-; auto).
    destruct (cont c && cont d && cont e); intros H; injection H as <- <-; auto; lia. }
  intros H; injection H as <- <-; auto.
Qed.

Lemma decode2_lt128 s r n : s <> [] -> no_overlong s -> decode2 s = (r, n) -> r < 128 ->
  n = 1%nat /\ hd_error s = Some r.
Proof.
  intros Hne Ho Hd Hr. specialize (Ho 0%nat). cbn [skipn] in Ho. rewrite Hd in Ho.
  assert (n = 1%nat).
  { destruct (decode2_size s) as [Hs _]. rewrite Hd in Hs. cbn in Hs.
    destruct (Nat.ltb_spec 1 n); [specialize (Ho H); lia|lia]. }
  split; auto. destruct (decode2_one s r n Hne Hd H); auto. unfold rune_error in *. lia.
Qed.

Lemma fix_scalar r : scalar (fix_rune r).
Proof.
  unfold fix_rune. destruct (scalarb r) eqn:E; [apply scalarb_spec; auto|].
  unfold scalar, rune_error. lia.
Qed.

Lemma enc_rune_hd c x : scalar c -> hd_error (enc_rune c) = Some x -> x < 128 -> c = x.
Proof.
  intros Hc Hh Hx. destruct (Z.ltb_spec c 128).
  - unfold enc_rune in Hh. replace (c <? 128) with true in Hh by lia. cbn in Hh. congruence.
  - pose proof (enc_rune_high c ltac:(lia) Hc) as Hf. destruct (enc_rune c); [discriminate|].
    cbn in Hh. injection Hh as ->. inversion Hf. lia.
Qed.

Lemma enc_rune_in27 c : scalar c -> In 27 (enc_rune c) -> c = 27.
Proof.
  intros Hc Hin. destruct (Z.ltb_spec c 128).
  - unfold enc_rune in Hin. replace (c <? 128) with true in Hin by lia. cbn in Hin. tauto.
  - pose proof (enc_rune_high c ltac:(lia) Hc) as Hf. rewrite Forall_forall in Hf.
    specialize (Hf _ Hin). lia.
Qed.

Lemma decode2_nonneg s r n : Forall (fun b => 0 <= b) s -> decode2 s = (r, n) -> 0 <= r.
Proof.
  intros Hf. unfold decode2. destruct s as [|b t]; [intros H; injection H as <- <-; unfold rune_error; lia|].
  inversion_clear Hf as [|? ? Hb Ht].
  destruct (b <? 128) eqn:E1; [intros H; injection H as <- <-; lia|].
  destruct ((192 <=? b) && (b <=? 223)) eqn:E2.
  { destruct t as [|c t]; [|destruct (cont c) eqn:Ec]; intros H; injection H as <- <-; unfold rune_error, cont in *; lia. }
  destruct ((224 <=? b) && (b <=? 239)) eqn:E3.
  { destruct t as [|c [|d t]]; [intros H; injection H as <- <-; unfold rune_error; lia..|].
    destruct (cont c && cont d) eqn:Ec; intros H; injection H as <- <-; unfold rune_error, cont in *; lia. }
  destruct ((240 <=? b) && (b <=? 247)) eqn:E4.
  { destruct t as [|c [|d [|e t]]]; [intros H; injection H as <- <-; unfold rune_error; lia..|].
    destruct (cont c && cont d && cont e) eqn:Ec; intros H; injection H as <- <-; unfold rune_error, cont in *; lia. }
  intros H; injection H as <- <-; unfold rune_error; lia.
Qed.

Section Trunc.
Variable zw : Z -> bool.
(** Facts about Go's tables: U+FFFD and non-scalar values are not zero-width. *)
Definition zw_ok : Prop := zw rune_error = false /\ forall r, ~ scalar r -> zw r = false.
Hypothesis Hzw : zw_ok.
Notation rdw := (rdw zw).
Notation wsum := (wsum zw).
Notation trunc_loop := (trunc_loop zw).
Notation truncate_line := (truncate_line zw).
Notation visual_width := (visual_width zw).

Lemma rdw_nonneg r : 0 <= rdw r.
Proof. unfold InlineModel.rdw. destruct (_ || _); [lia|]. destruct (in_ranges _ _); [lia|]. destruct (zw r); lia. Qed.

Lemma wsum_nonneg l : 0 <= wsum l.
Proof. induction l as [|r l IH]; cbn [InlineModel.wsum fold_right]; [lia|]. pose proof (rdw_nonneg r). unfold InlineModel.wsum in *. lia. Qed.

Lemma wsum_cons r l : wsum (r :: l) = rdw r + wsum l.
Proof. reflexivity. Qed.

Lemma rdw_fix r : 0 <= r -> rdw (fix_rune r) = rdw r.
Proof.
  intros Hr. unfold fix_rune. destruct (scalarb r) eqn:E; auto.
  assert (Hn : ~ scalar r) by (rewrite <- scalarb_spec; congruence).
  destruct Hzw as [H1 H2]. unfold scalar in Hn.
  unfold InlineModel.rdw. rewrite H1, (H2 r) by (unfold scalar; lia).
  replace ((r <? 32) || ((127 <=? r) && (r <? 160))) with false by lia.
  replace (in_ranges r wide_ranges) with false; [reflexivity|].
  symmetry. unfold in_ranges, wide_ranges. cbn [existsb fst snd]. lia.
Qed.

(** The heart of truncateLine. *)
Lemma trunc_spec fuel : forall s w maxw, (length s <= fuel)%nat -> no_overlong s ->
  Forall (fun b => 0 <= b) s -> w <= maxw ->
  let out := trunc_loop fuel s w maxw in
  (hd_error out = Some 92 -> hd_error s = Some 92) /\ (s = [] -> out = []) /\
  exists k, strip_ansi out = enc (firstn k (vis fuel s)) /\
    w + wsum (firstn k (vis fuel s)) <= maxw /\
    ((k < length (vis fuel s))%nat -> maxw < w + wsum (firstn (S k) (vis fuel s))).
Proof.
  induction fuel as [|f IH]; intros s w maxw Hl Ho Hb Hw; cbv zeta.
  - destruct s; [|cbn in Hl; lia]. cbn. repeat split; auto. exists 0%nat. cbn. repeat split; lia.
  - destruct s as [|c r]; [cbn; repeat split; auto; exists 0%nat; cbn; repeat split; lia|].
    cbn [InlineModel.trunc_loop vis]. cbn [length] in Hl.
    destruct (c =? 27) eqn:E27.
    + assert (c = 27) by lia. subst c.
      destruct (take_escape r) as [p q] eqn:Ee. pose proof (take_escape_app _ _ _ Ee) as Hr.
      cbn [snd]. assert (Hlq : (length q <= f)%nat) by (subst r; rewrite app_length in Hl; lia).
      assert (Hoq : no_overlong q).
      { apply (no_overlong_app (27 :: p)). cbn [app]. rewrite <- Hr. auto. }
      assert (Hbq : Forall (fun b => 0 <= b) q).
      { inversion_clear Hb as [|? ? _ Hb']. subst r. apply Forall_app in Hb'. tauto. }
      destruct (IH q w maxw Hlq Hoq Hbq Hw) as (Hhd & Hnil & k & Hs & Hk1 & Hk2).
      split; [cbn; congruence|]. split; [discriminate|]. exists k. split; [|auto].
      cbn [app]. rewrite strip_esc, (take_escape_replay r p q _ Ee) by (split; auto).
      cbn [snd]. auto.
    + destruct (decode2 (c :: r)) as [ru n] eqn:Ed.
      destruct (decode2_size (c :: r)) as [Hn1 Hn2]. rewrite Ed in Hn1, Hn2. cbn [snd] in *.
      specialize (Hn2 ltac:(discriminate)).
      assert (Hru : 0 <= ru) by (eapply decode2_nonneg; eauto).
      assert (Hfix := rdw_fix ru Hru).
      destruct (maxw <? w + rdw ru) eqn:Emax.
      * split; [discriminate|]. split; [discriminate|]. exists 0%nat. split; [reflexivity|].
        cbn [firstn]. rewrite wsum_cons. unfold InlineModel.wsum. cbn [fold_right]. lia.
      * assert (Hls : (length (skipn n (c :: r)) <= f)%nat) by (rewrite skipn_length; cbn [length]; lia).
        assert (Hbs : Forall (fun b => 0 <= b) (skipn n (c :: r))).
        { rewrite <- (firstn_skipn n (c :: r)) in Hb. apply Forall_app in Hb. tauto. }
        destruct (IH (skipn n (c :: r)) (w + rdw ru) maxw Hls (no_overlong_skip _ n Ho) Hbs ltac:(lia))
          as (Hhd & Hnil & k & Hs & Hk1 & Hk2).
        assert (Hfs := fix_scalar ru).
        split; [|split; [discriminate|]].
        -- intros Hh. assert (hd_error (enc_rune (fix_rune ru)) = Some 92).
           { unfold write_rune in Hh. destruct (enc_rune (fix_rune ru)) eqn:E; [exfalso; eapply enc_rune_ne; eauto|].
             cbn in Hh |- *. auto. }
           apply enc_rune_hd in H; auto; [|lia].
           assert (ru = 92).
           { unfold fix_rune in H. destruct (scalarb ru); auto; unfold rune_error in H; lia. }
           destruct (decode2_lt128 (c :: r) ru n ltac:(discriminate) Ho Ed ltac:(lia)) as [_ Hc]. congruence.
        -- exists (S k). rewrite !firstn_cons. split; [|split].
           ++ unfold write_rune. rewrite strip_app.
              ** rewrite Hs. reflexivity.
              ** intros Hin. apply enc_rune_in27 in Hin; auto.
                 assert (ru = 27).
                 { unfold fix_rune in Hin. destruct (scalarb ru); auto; unfold rune_error in Hin; lia. }
                 destruct (decode2_lt128 (c :: r) ru n ltac:(discriminate) Ho Ed ltac:(lia)) as [_ Hc].
                 cbn in Hc. injection Hc as Hc. lia.
           ++ rewrite wsum_cons, Hfix. lia.
           ++ intros Hk. cbn [length] in Hk. specialize (Hk2 ltac:(lia)).
              rewrite wsum_cons, Hfix. lia.
Qed.

Lemma vis_scalar fuel : forall s, Forall scalar (vis fuel s).
Proof.
  induction fuel as [|f IH]; intros s; cbn [vis]; auto.
  destruct s as [|c r]; auto. destruct (c =? 27); auto.
  destruct (decode2 (c :: r)). constructor; auto using fix_scalar.
Qed.

Lemma Forall_firstn {A} (P : A -> Prop) n l : Forall P l -> Forall P (firstn n l).
Proof. intros H. rewrite <- (firstn_skipn n l) in H. apply Forall_app in H. tauto. Qed.

(* ---------- valid UTF-8 ---------- *)
(** Valid UTF-8, possibly after the loss of some lead bytes. *)
Inductive okutf : list Z -> Prop :=
| ok_nil : okutf []
| ok_rune c s : scalar c -> okutf s -> okutf (enc_rune c ++ s)
| ok_stray b s : 128 <= b <= 191 -> okutf s -> okutf (b :: s).

Lemma enc_rune_tail c b t : scalar c -> enc_rune c = b :: t -> Forall (fun x => 128 <= x <= 191) t.
Proof.
  intros Hc. unfold scalar in Hc. unfold enc_rune.
  destruct (c <? 128) eqn:E1; [|destruct (c <? 2048) eqn:E2; [|destruct (c <? 65536) eqn:E3]];
  intros H; apply (f_equal (@tl Z)) in H; cbn [tl] in H; subst t; repeat (apply Forall_cons; [lia|]); apply Forall_nil.
Qed.

Lemma okutf_strays t s : Forall (fun x => 128 <= x <= 191) t -> okutf s -> okutf (t ++ s).
Proof. intros Ht Hs. induction Ht; cbn; auto. constructor; auto. Qed.

Lemma okutf_tail b s : okutf (b :: s) -> okutf s.
Proof.
  intros H. inversion H as [|c s' Hc Hs Heq|]; auto.
  destruct (enc_rune c) as [|b' t] eqn:E; [exfalso; eapply enc_rune_ne; eauto|].
  cbn in Heq. injection Heq as -> <-. apply okutf_strays; auto. eapply enc_rune_tail; eauto.
Qed.

Lemma okutf_skip n : forall s, okutf s -> okutf (skipn n s).
Proof.
  induction n as [|n IH]; intros s Hs; auto. destruct s as [|b s]; auto. cbn. apply IH.
  eapply okutf_tail; eauto.
Qed.

Lemma okutf_app p q : okutf (p ++ q) -> okutf q.
Proof. induction p; cbn; auto. intros H. apply okutf_tail in H. auto. Qed.

Lemma okutf_enc s : Forall scalar s -> okutf (enc s).
Proof. induction 1; cbn; constructor; auto. Qed.

Lemma decode2_enc c s : scalar c -> decode2 (enc_rune c ++ s) = (c, length (enc_rune c)).
Proof.
  intros Hc. unfold scalar in Hc. unfold enc_rune, decode2.
  destruct (c <? 128) eqn:E1; [cbn [app]; rewrite E1; reflexivity|].
  destruct (c <? 2048) eqn:E2.
  { cbn [app length]. replace (192 + c / 64 <? 128) with false by lia.
    replace ((192 <=? 192 + c / 64) && (192 + c / 64 <=? 223)) with true by lia.
    replace (cont (128 + c mod 64)) with true by (unfold cont; lia). f_equal. lia. }
  destruct (c <? 65536) eqn:E3.
  { cbn [app length]. replace (224 + c / 4096 <? 128) with false by lia.
    replace ((192 <=? 224 + c / 4096) && (224 + c / 4096 <=? 223)) with false by lia.
    replace ((224 <=? 224 + c / 4096) && (224 + c / 4096 <=? 239)) with true by lia.
    replace (cont (128 + (c / 64) mod 64)) with true by (unfold cont; lia).
    replace (cont (128 + c mod 64)) with true by (unfold cont; lia). cbn [andb]. f_equal. lia. }
  cbn [app length]. replace (240 + c / 262144 <? 128) with false by lia.
  replace ((192 <=? 240 + c / 262144) && (240 + c / 262144 <=? 223)) with false by lia.
  replace ((224 <=? 240 + c / 262144) && (240 + c / 262144 <=? 239)) with false by lia.
  replace ((240 <=? 240 + c / 262144) && (240 + c / 262144 <=? 247)) with true by lia.
  replace (cont (128 + (c / 4096) mod 64)) with true by (unfold cont; lia).
  replace (cont (128 + (c / 64) mod 64)) with true by (unfold cont; lia).
  replace (cont (128 + c mod 64)) with true by (unfold cont; lia). cbn [andb]. f_equal. lia.
Qed.

Lemma decode2_stray b s : 128 <= b <= 191 -> decode2 (b :: s) = (rune_error, 1%nat).
Proof.
  intros Hb. unfold decode2. replace (b <? 128) with false by lia.
  replace ((192 <=? b) && (b <=? 223)) with false by lia.
  replace ((224 <=? b) && (b <=? 239)) with false by lia.
  replace ((240 <=? b) && (b <=? 247)) with false by lia. reflexivity.
Qed.

Lemma okutf_no_overlong s : okutf s -> no_overlong s.
Proof.
  intros Hs i. pose proof (okutf_skip i s Hs) as H. inversion H as [Hn|c s' Hc Hs' Heq|b s' Hb Hs' Heq].
  - cbn. lia.
  - rewrite decode2_enc by auto. intros Hl. unfold enc_rune in Hl.
    destruct (c <? 128) eqn:E; [cbn in Hl; lia|lia].
  - rewrite decode2_stray by auto. unfold rune_error. lia.
Qed.

Lemma okutf_nonneg s : okutf s -> Forall (fun b => 0 <= b) s.
Proof.
  induction 1 as [|c s Hc Hs IH|b s Hb Hs IH]; auto.
  - apply Forall_app. split; auto. eapply Forall_impl; [|apply enc_rune_bytes; auto]. cbn; lia.
  - constructor; auto. lia.
Qed.

Lemma vis_plain fuel : forall s, okutf s -> (length s <= fuel)%nat -> plain s = vis fuel s.
Proof.
  unfold plain. induction fuel as [|f IH]; intros s Hs Hl.
  - destruct s; [reflexivity|cbn in Hl; lia].
  - inversion Hs as [Hn|c s' Hc Hs' Heq|b s' Hb Hs' Heq].
    + reflexivity.
    + destruct (Z.eq_dec c 27) as [->|Hne].
      * cbn [enc_rune Z.ltb Z.compare Pos.compare Pos.compare_cont app] in *.
        change (enc_rune 27) with [27] in *. cbn [app vis Z.eqb Pos.eqb].
        rewrite strip_esc. destruct (take_escape s') as [p q] eqn:Ee.
        pose proof (take_escape_app _ _ _ Ee) as Hr. cbn [snd]. apply IH.
        -- subst s'. apply okutf_app in Hs'. auto.
        -- rewrite <- Heq in Hl. subst s'. cbn [app length] in Hl. rewrite app_length in Hl. lia.
      * assert (Hn27 : ~ In 27 (enc_rune c)) by (intros Hi; apply enc_rune_in27 in Hi; auto).
        rewrite strip_app, runes_of_cons_rune by auto.
        destruct (enc_rune c ++ s') as [|b0 r0] eqn:Ea.
        { apply app_eq_nil in Ea as [Ea _]. exfalso; eapply enc_rune_ne; eauto. }
        cbn [vis]. destruct (b0 =? 27) eqn:E27.
        { exfalso. apply Hn27. pose proof (enc_rune_ne c) as Hne'. destruct (enc_rune c) as [|e0 e1].
          - congruence.
          - apply (f_equal (@hd_error Z)) in Ea. cbn [app hd_error] in Ea. apply some_inj in Ea.
            left. lia. }
        rewrite <- Ea, decode2_enc by auto. f_equal.
        -- unfold fix_rune. replace (scalarb c) with true; auto. symmetry. apply scalarb_spec; auto.
        -- rewrite skipn_app, skipn_all, Nat.sub_diag. cbn [skipn app]. apply IH; auto.
           rewrite <- Heq, <- Ea, app_length in Hl.
           assert (0 < length (enc_rune c))%nat by (pose proof (enc_rune_ne c); destruct (enc_rune c); [congruence|cbn; lia]).
           lia.
    + rewrite strip_cons, runes_of_stray by lia. cbn [vis].
      replace (b =? 27) with false by lia. rewrite decode2_stray by auto. cbn [skipn].
      f_equal. apply IH; auto. rewrite <- Heq in Hl. cbn in Hl. lia.
Qed.

Lemma truncate_width s maxw : 0 < maxw -> no_overlong s -> Forall (fun b => 0 <= b) s ->
  visual_width (truncate_line s maxw) <= maxw.
Proof.
  intros Hm Ho Hb. unfold InlineModel.truncate_line.
  destruct (maxw <=? 0) eqn:E0; [lia|]. destruct (visual_width s <=? maxw) eqn:E1; cbn [orb]; [lia|].
  destruct (trunc_spec (length s) s 0 maxw ltac:(lia) Ho Hb ltac:(lia)) as (_ & _ & k & Hs & Hk & _).
  unfold InlineModel.visual_width, plain. rewrite Hs, runes_of_enc; [lia|].
  apply Forall_firstn, vis_scalar.
Qed.

Lemma truncate_prefix s maxw : 0 < maxw -> okutf s ->
  exists k, plain (truncate_line s maxw) = firstn k (plain s) /\
    ((k < length (plain s))%nat -> maxw < wsum (firstn (S k) (plain s))).
Proof.
  intros Hm Hs. unfold InlineModel.truncate_line.
  destruct (maxw <=? 0) eqn:E0; [lia|]. destruct (visual_width s <=? maxw) eqn:E1; cbn [orb].
  - exists (length (plain s)). rewrite firstn_all. split; auto. lia.
  - destruct (trunc_spec (length s) s 0 maxw ltac:(lia) (okutf_no_overlong _ Hs) (okutf_nonneg _ Hs) ltac:(lia))
      as (_ & _ & k & Hst & Hk & Hk2).
    exists k. rewrite (vis_plain (length s) s) by auto. unfold plain. rewrite Hst, runes_of_enc.
    + split; [reflexivity|]. intros Hl. specialize (Hk2 Hl). lia.
    + apply Forall_firstn, vis_scalar.
Qed.

(* ---------- byte prefix ---------- *)
(** Every ESC is followed by an ASCII character (or ends the text). *)
Fixpoint esc_ascii (t : list Z) : Prop :=
  match t with
  | [] => True
  | c :: r => (c = 27 -> match r with [] => True | d :: _ => d < 128 end) /\ esc_ascii r
  end.

Lemma esc_ascii_app p q : esc_ascii (p ++ q) -> esc_ascii q.
Proof. induction p; cbn; tauto. Qed.

Lemma take_csi_high h r : Forall (fun b => 128 <= b) h ->
  take_csi (h ++ r) = (h ++ fst (take_csi r), snd (take_csi r)).
Proof.
  induction 1 as [|b h Hb Hh IH]; cbn [app]; [destruct (take_csi r); reflexivity|].
  cbn [take_csi]. replace ((64 <=? b) && (b <=? 126)) with false by lia. rewrite IH. reflexivity.
Qed.
Lemma take_osc_high h r : Forall (fun b => 128 <= b) h ->
  take_osc (h ++ r) = (h ++ fst (take_osc r), snd (take_osc r)).
Proof.
  induction 1 as [|b h Hb Hh IH]; cbn [app]; [destruct (take_osc r); reflexivity|].
  cbn [take_osc]. replace (b =? 7) with false by lia. replace (b =? 27) with false by lia.
  rewrite IH. reflexivity.
Qed.

Lemma enc_cons_low c t : c < 128 -> enc (c :: t) = c :: enc t.
Proof. intros H. cbn [enc flat_map]. unfold enc_rune. replace (c <? 128) with true by lia. reflexivity. Qed.

Lemma enc_hd_low t x r : Forall scalar t -> enc t = x :: r -> x < 128 -> exists t', t = x :: t' /\ r = enc t'.
Proof.
  intros Hs He Hx. destruct t as [|c t]; [discriminate|]. inversion_clear Hs as [|? ? Hc Ht].
  assert (c = x).
  { apply (enc_rune_hd c x); auto. pose proof (enc_rune_ne c). cbn [enc flat_map] in He.
    destruct (enc_rune c); [congruence|]. apply (f_equal (@hd_error Z)) in He. auto. }
  subst c. exists t. split; auto. rewrite enc_cons_low in He by auto.
  apply (f_equal (@tl Z)) in He. auto.
Qed.

Lemma take_csi_enc t : Forall scalar t ->
  exists p q, t = p ++ q /\ take_csi (enc t) = (enc p, enc q).
Proof.
  induction t as [|c t IH]; intros Hs; [exists [], []; auto|].
  inversion_clear Hs as [|? ? Hc Ht]. destruct (IH Ht) as (p & q & -> & Hq). clear IH.
  destruct (Z.ltb_spec c 128).
  - rewrite enc_cons_low by auto. cbn [take_csi]. destruct (_ && _).
    + exists [c], (p ++ q). split; auto. rewrite enc_cons_low by auto. reflexivity.
    + rewrite Hq. exists (c :: p), q. split; auto. rewrite enc_cons_low by auto. reflexivity.
  - exists (c :: p), q. split; auto.
    change (enc (c :: p ++ q)) with (enc_rune c ++ enc (p ++ q)).
    rewrite take_csi_high by (apply enc_rune_high; auto). rewrite Hq. reflexivity.
Qed.

Lemma take_osc_enc t : Forall scalar t ->
  exists p q, t = p ++ q /\ take_osc (enc t) = (enc p, enc q).
Proof.
  induction t as [|c t IH]; intros Hs; [exists [], []; auto|].
  inversion_clear Hs as [|? ? Hc Ht]. destruct (IH Ht) as (p & q & Heq & Hq). clear IH.
  destruct (Z.ltb_spec c 128).
  - rewrite enc_cons_low by auto. cbn [take_osc]. destruct (c =? 7).
    { exists [c], t. split; auto. rewrite enc_cons_low by auto. reflexivity. }
    destruct (c =? 27).
    + destruct (enc t) as [|d r'] eqn:Ee.
      * assert (t = []). { destruct t as [|x t]; auto. cbn in Ee. apply app_eq_nil in Ee as [Ee _]. exfalso; eapply enc_rune_ne; eauto. }
        exists [c], []. rewrite H0. split; auto. rewrite enc_cons_low by auto. reflexivity.
      * destruct (d =? 92) eqn:E92.
        -- assert (d = 92) by lia. subst d. destruct (enc_hd_low t 92 r' Ht Ee ltac:(lia)) as (t' & -> & ->).
           exists [c; 92], t'. split; auto. rewrite enc_cons_low by auto. reflexivity.
        -- exists [c], t. split; auto. rewrite enc_cons_low, Ee by auto. reflexivity.
    + rewrite Hq. exists (c :: p), q. subst t. split; auto. rewrite enc_cons_low by auto. reflexivity.
  - exists (c :: p), q. subst t. split; auto.
    change (enc (c :: p ++ q)) with (enc_rune c ++ enc (p ++ q)).
    rewrite take_osc_high by (apply enc_rune_high; auto). rewrite Hq. reflexivity.
Qed.

Lemma take_escape_enc t : Forall scalar t -> match t with [] => True | d :: _ => d < 128 end ->
  exists p q, t = p ++ q /\ take_escape (enc t) = (enc p, enc q).
Proof.
  intros Hs Hd. destruct t as [|d t]; [exists [], []; auto|].
  inversion_clear Hs as [|? ? Hc Ht]. rewrite enc_cons_low by auto. cbn [take_escape].
  destruct (d =? 91).
  - destruct (take_csi_enc t Ht) as (p & q & -> & ->). exists (d :: p), q. split; auto.
    rewrite enc_cons_low by auto. reflexivity.
  - destruct (d =? 93).
    + destruct (take_osc_enc t Ht) as (p & q & -> & ->). exists (d :: p), q. split; auto.
      rewrite enc_cons_low by auto. reflexivity.
    + exists [d], t. split; auto. rewrite enc_cons_low by auto. reflexivity.
Qed.

Lemma fix_id c : scalar c -> fix_rune c = c.
Proof. intros H. unfold fix_rune. replace (scalarb c) with true; auto. symmetry. apply scalarb_spec; auto. Qed.

(** Where the cut falls, and what is kept. *)
Lemma trunc_prefix fuel : forall t w maxw, (length (enc t) <= fuel)%nat -> Forall scalar t ->
  esc_ascii t ->
  exists t1 t2, t = t1 ++ t2 /\ trunc_loop fuel (enc t) w maxw = enc t1 /\
    strip_ansi (enc t) = strip_ansi (enc t1) ++ strip_ansi (enc t2) /\
    (hd_error t1 = Some 92 -> hd_error t = Some 92) /\
    (t = [] -> t1 = []) /\
    match t2 with [] => True | c :: _ => c <> 27 /\ maxw < w + wsum (plain (enc t1)) + rdw c end.
Proof.
  induction fuel as [|f IH]; intros t w maxw Hl Hs He.
  - assert (enc t = []) by (destruct (enc t); [auto|cbn in Hl; lia]).
    assert (t = []). { destruct t as [|x t]; auto. cbn in H. apply app_eq_nil in H as [H _]. exfalso; eapply enc_rune_ne; eauto. }
    subst t. exists [], []. repeat split; auto.
  - destruct t as [|c t]; [exists [], []; repeat split; auto|].
    inversion_clear Hs as [|? ? Hc Ht]. cbn [esc_ascii] in He. destruct He as [He1 He2].
    destruct (Z.eq_dec c 27) as [->|Hne].
    + rewrite enc_cons_low in * by lia. cbn [InlineModel.trunc_loop Z.eqb Pos.eqb].
      destruct (take_escape_enc t Ht (He1 eq_refl)) as (p & q & -> & Hq). rewrite Hq.
      apply Forall_app in Ht as [Hp Hqs]. pose proof (esc_ascii_app _ _ He2) as Heq.
      cbn [length] in Hl. rewrite enc_app, app_length in Hl.
      destruct (IH q w maxw ltac:(lia) Hqs Heq) as (t1 & t2 & -> & Htr & Hst & Hh & Hn & Hcut).
      rewrite Htr. exists (27 :: p ++ t1), t2.
      assert (Hrep : take_escape (enc p ++ enc t1) = (enc p, enc t1)).
      { apply (take_escape_replay (enc (p ++ t1 ++ t2)) (enc p) (enc (t1 ++ t2))); auto. split.
        - intros Hnil. rewrite enc_app in Hnil. apply app_eq_nil in Hnil. tauto.
        - intros Hx. rewrite enc_app.
          destruct (enc t1) as [|y z] eqn:Et1; [discriminate|]. cbn in Hx |- *. auto. }
      assert (Hst1 : strip_ansi (enc (27 :: p ++ t1)) = strip_ansi (enc t1)).
      { rewrite enc_cons_low, enc_app, strip_esc, Hrep by lia. reflexivity. }
      split; [cbn; rewrite app_assoc; reflexivity|].
      split; [rewrite enc_cons_low, enc_app by lia; reflexivity|].
      split; [rewrite strip_esc, Hq; cbn [snd]; rewrite Hst1; auto|].
      split; [cbn; congruence|]. split; [discriminate|].
      destruct t2 as [|c2 t2]; auto. unfold plain in *. rewrite Hst1. auto.
    + assert (Hn27 : ~ In 27 (enc_rune c)) by (intros Hi; apply enc_rune_in27 in Hi; auto).
      assert (Hstep : trunc_loop (S f) (enc (c :: t)) w maxw =
        if maxw <? w + rdw c then [] else enc_rune c ++ trunc_loop f (enc t) (w + rdw c) maxw).
      { change (enc (c :: t)) with (enc_rune c ++ enc t).
        pose proof (enc_rune_ne c) as Hne'. pose proof (decode2_enc c (enc t) Hc) as Hd.
        assert (Hwr : write_rune c = enc_rune c) by (unfold write_rune; rewrite fix_id; auto).
        assert (Hsk : skipn (length (enc_rune c)) (enc_rune c ++ enc t) = enc t)
          by (rewrite skipn_app, skipn_all, Nat.sub_diag; reflexivity).
        destruct (enc_rune c) as [|e0 e1] eqn:Ee; [congruence|]. cbn [app] in *.
        cbn [InlineModel.trunc_loop]. replace (e0 =? 27) with false by (cbn in Hn27; lia).
        rewrite Hd, Hsk. rewrite Hwr. reflexivity. }
      rewrite Hstep. destruct (maxw <? w + rdw c) eqn:Emax.
      { exists [], (c :: t). split; [auto|]. split; [auto|]. split; [reflexivity|].
        split; [discriminate|]. split; [auto|]. split; auto.
        unfold plain, InlineModel.wsum. cbn [enc flat_map strip_ansi strip_loop length].
        change (runes_of []) with (@nil Z). cbn [fold_right]. lia. }
      change (enc (c :: t)) with (enc_rune c ++ enc t) in Hl. rewrite app_length in Hl.
      pose proof (enc_rune_ne c) as Hne'.
      assert (0 < length (enc_rune c))%nat by (destruct (enc_rune c); [congruence|cbn; lia]).
      destruct (IH t (w + rdw c) maxw ltac:(lia) Ht He2) as (t1 & t2 & -> & Htr & Hst & Hh & Hn & Hcut).
      rewrite Htr. exists (c :: t1), t2. split; [auto|]. split; [reflexivity|].
      split; [change (enc (c :: t1 ++ t2)) with (enc_rune c ++ enc (t1 ++ t2));
        change (enc (c :: t1)) with (enc_rune c ++ enc t1);
        rewrite !strip_app by auto; rewrite Hst, app_assoc; reflexivity|].
      split; [auto|]. split; [discriminate|].
      destruct t2 as [|c2 t2]; auto. destruct Hcut as [H1 H2]. split; auto.
      unfold plain in *. change (enc (c :: t1)) with (enc_rune c ++ enc t1).
      rewrite strip_app, runes_of_cons_rune, wsum_cons by auto. lia.
Qed.

Lemma strip_enc t : Forall scalar t -> esc_ascii t -> exists u, Forall scalar u /\ strip_ansi (enc t) = enc u.
Proof.
  remember (length t) as n eqn:En. revert t En.
  induction n as [n IH] using lt_wf_ind. intros t -> Hs He.
  destruct t as [|c t]; [exists []; auto|]. inversion_clear Hs as [|? ? Hc Ht].
  cbn [esc_ascii] in He. destruct He as [He1 He2]. destruct (Z.eq_dec c 27) as [->|Hne].
  - rewrite enc_cons_low, strip_esc by lia.
    destruct (take_escape_enc t Ht (He1 eq_refl)) as (p & q & -> & Hq). rewrite Hq. cbn [snd].
    apply Forall_app in Ht as [_ Hqs]. apply (IH (length q)); auto.
    + cbn [length]. rewrite app_length. lia.
    + eapply esc_ascii_app; eauto.
  - destruct (IH (length t) ltac:(cbn; lia) t eq_refl Ht He2) as (u & Hu & Hst).
    exists (c :: u). split; [constructor; auto|].
    change (enc (c :: t)) with (enc_rune c ++ enc t).
    rewrite strip_app, Hst by (intros Hi; apply enc_rune_in27 in Hi; auto). reflexivity.
Qed.

Lemma esc_ascii_pre p q : esc_ascii (p ++ q) -> esc_ascii p.
Proof.
  induction p as [|c p IH]; cbn [app esc_ascii]; auto. intros [H1 H2]. split; auto.
  intros Hc. specialize (H1 Hc). destruct p; auto.
Qed.

Theorem truncate_cut t maxw : 0 < maxw -> Forall scalar t -> esc_ascii t ->
  exists t1 t2, t = t1 ++ t2 /\ truncate_line (enc t) maxw = enc t1 /\
    visual_width (enc t1) <= maxw /\
    plain (enc t) = plain (enc t1) ++ plain (enc t2) /\
    match t2 with [] => True | c :: _ => c <> 27 /\ maxw < visual_width (enc t1) + rdw c end.
Proof.
  intros Hm Hs He. pose proof (truncate_width (enc t) maxw Hm (okutf_no_overlong _ (okutf_enc _ Hs)) (okutf_nonneg _ (okutf_enc _ Hs))) as Hw.
  unfold InlineModel.truncate_line in *. destruct (maxw <=? 0) eqn:E0; [lia|].
  destruct (visual_width (enc t) <=? maxw) eqn:E1; cbn [orb] in *.
  { exists t, []. rewrite app_nil_r. split; [auto|]. split; [auto|]. split; [auto|].
    split; [|auto]. change (plain (enc [])) with (@nil Z). rewrite app_nil_r. reflexivity. }
  destruct (trunc_prefix _ t 0 maxw (le_n _) Hs He) as (t1 & t2 & Heq & Htr & Hst & _ & _ & Hcut).
  exists t1, t2. rewrite Htr in *. split; [auto|]. split; [auto|]. split; [auto|]. split.
  - subst t. apply Forall_app in Hs as [Hs1 Hs2].
    destruct (strip_enc t1 Hs1 (esc_ascii_pre _ _ He)) as (u1 & Hu1 & E1').
    destruct (strip_enc t2 Hs2 (esc_ascii_app _ _ He)) as (u2 & Hu2 & E2').
    unfold plain. rewrite Hst, E1', E2', <- enc_app, !runes_of_enc; auto. apply Forall_app; auto.
  - destruct t2 as [|c t2]; auto.
Qed.
End Trunc.
