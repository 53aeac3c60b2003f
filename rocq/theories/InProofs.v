From Verif Require Import Prelude Utf8 InModel InSpec.

Section Input.
Variable brk : list Z -> Z -> bool.
Notation seg := (seg_from brk).
Notation gs := (graphemes brk).

Lemma seg_concat s : forall left cur, concat (seg left cur s) = cur ++ s.
Proof.
  induction s as [|c s IH]; intros left cur; cbn [seg_from].
  - destruct cur; cbn; rewrite ?app_nil_r; auto.
  - destruct cur as [|x cur]; [rewrite IH; reflexivity|]. destruct (brk left c); cbn [concat]; rewrite IH; [reflexivity|]. rewrite <- app_assoc. reflexivity.
Qed.
Lemma gs_concat s : concat (gs s) = s.
Proof. apply seg_concat. Qed.
Lemma seg_nonempty s : forall left cur, Forall (fun g => g <> []) (seg left cur s).
Proof.
  induction s as [|c s IH]; intros left cur; cbn [seg_from].
  - destruct cur; repeat constructor. discriminate.
  - destruct cur as [|x cur]; [apply IH|]. destruct (brk left c); [constructor; [discriminate|]|]; apply IH.
Qed.

(** Cutting at a boundary: the first k clusters are the clusters of their text. *)
Lemma seg_prefix s : forall left cur k, cur <> [] -> (1 <= k)%nat ->
  exists s1, concat (firstn k (seg left cur s)) = cur ++ s1 /\ seg left cur s1 = firstn k (seg left cur s).
Proof.
  induction s as [|c s IH]; intros left cur k Hc Hk; destruct k as [|k]; try lia; destruct cur as [|x cur]; try congruence; cbn [seg_from].
  - exists []. rewrite firstn_nil_r || idtac. cbn. destruct k; cbn; rewrite app_nil_r; auto.
  - destruct (brk left c) eqn:B.
    + destruct k as [|k].
      * exists []. cbn. rewrite app_nil_r. auto.
      * destruct (IH (c :: left) [c] (S k)) as (s1 & A1 & A2); [discriminate|lia|].
        exists (c :: s1). cbn [firstn concat]. cbn [firstn] in A1, A2. rewrite A1. split; [reflexivity|]. cbn [seg_from]. rewrite B, A2. reflexivity.
    + destruct (IH (c :: left) ((x :: cur) ++ [c]) (S k)) as (s1 & A1 & A2); [destruct cur; discriminate|lia|].
      exists (c :: s1). rewrite A1, <- app_assoc. split; [reflexivity|]. cbn [seg_from]. rewrite B. exact A2.
Qed.
Lemma gs_cons c s : gs (c :: s) = seg [c] [c] s.
Proof. reflexivity. Qed.
Lemma gs_prefix s k : gs (concat (firstn k (gs s))) = firstn k (gs s).
Proof.
  destruct k as [|k]; [reflexivity|]. destruct s as [|c s]; [reflexivity|]. rewrite gs_cons.
  destruct (seg_prefix s [c] [c] (S k)) as (s1 & A & B); [discriminate|lia|]. rewrite A. exact B.
Qed.

(** Appending on the right keeps the boundaries. *)
Lemma seg_app s1 : forall left cur s2, (length (seg left cur s1) <= length (seg left cur (s1 ++ s2)))%nat.
Proof.
  induction s1 as [|c s1 IH]; intros left cur s2; cbn [seg_from app].
  - destruct cur as [|x cur]; [cbn; lia|]. cbn [length]. clear. remember (x :: cur) as k eqn:E. assert (H : k <> []) by (subst; discriminate). clear E.
    revert left k H. induction s2 as [|c s2 IH]; intros left k H; cbn [seg_from]; destruct k; try congruence; [cbn; lia|].
    destruct (brk left c); [cbn; lia|]. apply IH. destruct k; discriminate.
  - destruct cur as [|x cur]; [apply IH|]. destruct (brk left c); [cbn [length]; apply le_n_S|]; apply IH.
Qed.
Lemma gs_app s1 s2 : (length (gs s1) <= length (gs (s1 ++ s2)))%nat.
Proof. apply seg_app. Qed.

Lemma gs_firstn_app k s rest : (k <= length (gs s))%nat -> (k <= length (gs (concat (firstn k (gs s)) ++ rest)))%nat.
Proof. intros H. pose proof (gs_app (concat (firstn k (gs s))) rest). rewrite gs_prefix, firstn_length in H0. lia. Qed.

Lemma split_parts s p : (p <= length (gs s))%nat ->
  let '(b, a, c) := split_at brk s p in b = concat (firstn p (gs s)) /\ a ++ c = concat (skipn p (gs s)) /\ b ++ a ++ c = s /\
    a = nth p (gs s) [].
Proof.
  intros H. unfold split_at. destruct (_ <? _)%nat eqn:E.
  - apply Nat.ltb_lt in E. split; [auto|]. assert (K : nth p (gs s) [] ++ concat (skipn (S p) (gs s)) = concat (skipn p (gs s))).
    { assert (skipn p (gs s) = nth p (gs s) [] :: skipn (S p) (gs s)) as ->; [|reflexivity].
      clear H. revert p E. generalize (gs s). induction l as [|x l IH]; intros p E; [cbn in E; lia|]. destruct p; [reflexivity|]. cbn. apply IH. cbn in E. lia. }
    split; [auto|]. split; [|auto]. rewrite K, <- concat_app, firstn_skipn. apply gs_concat.
  - apply Nat.ltb_ge in E. replace p with (length (gs s)) by lia. rewrite firstn_all, skipn_all, gs_concat, app_nil_r.
    split; [auto|]. split; [auto|]. split; [now rewrite ?app_nil_r|]. symmetry. apply nth_overflow. lia.
Qed.

Lemma goffset_firstn s g : (g <= length (gs s))%nat -> firstn (goffset brk s g) s = concat (firstn g (gs s)) /\ skipn (goffset brk s g) s = concat (skipn g (gs s)).
Proof.
  intros H. unfold goffset. destruct (g =? 0)%nat eqn:E0.
  - apply Nat.eqb_eq in E0. subst g. cbn. rewrite gs_concat. auto.
  - assert (S0 : s = concat (firstn g (gs s)) ++ concat (skipn g (gs s))) by (rewrite <- concat_app, firstn_skipn, gs_concat; auto).
    destruct (g <? _)%nat eqn:E1.
    + set (a := concat (firstn g (gs s))) in *. set (b := concat (skipn g (gs s))) in *. rewrite S0.
      rewrite firstn_app, skipn_app, Nat.sub_diag, firstn_all, skipn_all. cbn. now rewrite app_nil_r.
    + apply Nat.ltb_ge in E1. replace g with (length (gs s)) by lia. rewrite !firstn_all, !skipn_all, gs_concat. auto.
Qed.

Lemma move_to_le o m : (move_to o m <= m)%nat.
Proof. unfold move_to, clampZ. lia. Qed.

Lemma delete_sel_eq t a b : sel t = Some (a, b) -> a <> b -> ivalid brk t ->
  delete_selection brk t = put t (concat (firstn a (gs (content t))) ++ concat (skipn b (gs (content t)))) a None.
Proof.
  intros E Hab [_ S _]. destruct (S a b E Hab) as [L1 L2]. unfold delete_selection. rewrite E. unfold sel_empty. cbn [fst snd].
  replace (a =? b)%nat with false by (symmetry; apply Nat.eqb_neq; auto).
  destruct (goffset_firstn (content t) a) as [A _]; [lia|]. destruct (goffset_firstn (content t) b) as [_ B]; [lia|]. now rewrite A, B.
Qed.
Lemma has_sel_some t : has_sel t = true -> exists a b, sel t = Some (a, b) /\ a <> b.
Proof. unfold has_sel. destruct (sel t) as [[a b]|]; [|discriminate]. unfold sel_empty. cbn. intros H. exists a, b. split; auto. intros ->. rewrite Nat.eqb_refl in H. discriminate. Qed.
Lemma has_sel_none t : has_sel t = false -> forall a b, sel t = Some (a, b) -> a = b.
Proof. unfold has_sel, sel_empty. intros H a b E. rewrite E in H. cbn in H. apply Nat.eqb_eq. now destruct (a =? b)%nat. Qed.

Lemma delete_sel_valid t : ivalid brk t -> has_sel t = true -> ivalid brk (delete_selection brk t) /\ sel (delete_selection brk t) = None.
Proof.
  intros V H. destruct (has_sel_some t H) as (a & b & E & N). rewrite (delete_sel_eq t a b E N V). split; [|reflexivity].
  destruct V as [_ S W]. destruct (S a b E N). constructor; cbn; auto; [|discriminate]. apply gs_firstn_app. lia.
Qed.

Lemma sel_vacuous t t' : has_sel t = false -> sel t' = sel t -> forall a b, sel t' = Some (a, b) -> a <> b -> (a < b <= length (gs (content t')))%nat.
Proof. intros H E a b Es N. rewrite E in Es. exfalso. apply N. eapply has_sel_none; eauto. Qed.

(** Insertion. *)
Lemma insert_eq t r : ivalid brk t -> has_sel t = false ->
  content (insert_rune brk t r) = ibefore brk t ++ [r] ++ iafter brk t /\
  cursor (insert_rune brk t r) = Nat.min (S (cursor t)) (length (gs (ibefore brk t ++ [r] ++ iafter brk t))) /\
  sel (insert_rune brk t r) = sel t.
Proof.
  intros V H. unfold insert_rune. rewrite H. pose proof (split_parts (content t) (cursor t) (i_cursor _ _ V)) as P.
  destruct (split_at brk (content t) (cursor t)) as [[b a] c]. destruct P as (B & A & _ & _).
  assert (E : b ++ [r] ++ a ++ c = ibefore brk t ++ [r] ++ iafter brk t) by (unfold ibefore, iafter; now rewrite B, A).
  cbn [put content cursor sel]. rewrite E. split; [auto|]. split; [|auto]. unfold move_by, move_to, clampZ, gcount. lia.
Qed.
Lemma insert_valid t r : ivalid brk t -> ivalid brk (insert_rune brk t r).
Proof.
  intros V. assert (G : forall u, ivalid brk u -> has_sel u = false -> ivalid brk (insert_rune brk u r)).
  { intros u Vu Hu. destruct (insert_eq u r Vu Hu) as (A & B & C). constructor.
    - rewrite B, A. lia.
    - eapply sel_vacuous; eauto.
    - unfold insert_rune. rewrite Hu. destruct (split_at _ _ _) as [[? ?] ?]. apply Vu. }
  destruct (has_sel t) eqn:H; [|apply G; auto].
  destruct (delete_sel_valid t V H) as [V' S']. assert (H' : has_sel (delete_selection brk t) = false) by (unfold has_sel; now rewrite S').
  specialize (G _ V' H'). unfold insert_rune in *. rewrite H. rewrite H' in G. exact G.
Qed.

(** Backspace. *)
Lemma backward_eq t : ivalid brk t -> has_sel t = false -> cursor t <> 0%nat ->
  let g := gs (content t) in let k := (cursor t - 1)%nat in
  delete_backward brk t = put t (concat (firstn k g) ++ concat (skipn (S k) g)) k (sel t).
Proof.
  intros V H Hc g k. unfold delete_backward. rewrite H. replace (cursor t =? 0)%nat with false by (symmetry; apply Nat.eqb_neq; auto).
  pose proof (split_parts (content t) (cursor t) (i_cursor _ _ V)) as P. destruct V as [V1 _ _].
  destruct (split_at brk (content t) (cursor t)) as [[b a] c]. destruct P as (B & A & _ & _).
  assert (G : gs b = firstn (cursor t) g) by (rewrite B; apply gs_prefix).
  assert (L : gcount brk b = cursor t) by (unfold gcount; rewrite G, firstn_length; subst g; lia).
  assert (Hb : match b with [] => [] | _ :: _ => firstn (goffset brk b (gcount brk b - 1)) b end = concat (firstn k g)).
  { transitivity (firstn (goffset brk b (gcount brk b - 1)) b).
    - destruct b; [symmetry; apply firstn_nil|reflexivity].
    - rewrite L. destruct (goffset_firstn b (cursor t - 1)) as [X _]; [unfold gcount in L; lia|]. rewrite X, G. rewrite firstn_firstn.
      f_equal. f_equal. subst k. lia. }
  assert (Hc2 : S k = cursor t) by (subst k; lia).
  rewrite Hb, A, Hc2. fold g. unfold put. f_equal.
  unfold move_by, move_to, clampZ, gcount. pose proof (gs_firstn_app k (content t) (concat (skipn (cursor t) g)) ltac:(lia)). fold g in H0. lia.
Qed.
Lemma backward_valid t : ivalid brk t -> ivalid brk (delete_backward brk t).
Proof.
  intros V. destruct (has_sel t) eqn:H.
  - unfold delete_backward. rewrite H. apply delete_sel_valid; auto.
  - destruct (Nat.eq_dec (cursor t) 0) as [E|E].
    + unfold delete_backward. rewrite H, E. exact V.
    + rewrite backward_eq by auto. constructor; cbn [content cursor sel put iwidth].
      * apply gs_firstn_app. destruct V. lia.
      * intros a b Es N. exfalso. apply N. eapply has_sel_none; eauto.
      * apply V.
Qed.

(** Delete. *)
Lemma forward_eq t : ivalid brk t -> has_sel t = false -> (cursor t < length (gs (content t)))%nat ->
  let g := gs (content t) in
  delete_forward_ brk t = put t (concat (firstn (cursor t) g) ++ concat (skipn (S (cursor t)) g)) (cursor t) (sel t).
Proof.
  intros V H Hc g. unfold delete_forward_. rewrite H. unfold gcount. replace (_ <=? cursor t)%nat with false by (symmetry; apply Nat.leb_gt; auto).
  unfold split_at. replace (cursor t <? _)%nat with true by (symmetry; apply Nat.ltb_lt; auto). reflexivity.
Qed.
Lemma forward_valid t : ivalid brk t -> ivalid brk (delete_forward_ brk t).
Proof.
  intros V. destruct (has_sel t) eqn:H.
  - unfold delete_forward_. rewrite H. apply delete_sel_valid; auto.
  - destruct (Nat.le_gt_cases (length (gs (content t))) (cursor t)) as [E|E].
    + unfold delete_forward_. rewrite H. unfold gcount. replace (_ <=? cursor t)%nat with true by (symmetry; apply Nat.leb_le; auto). exact V.
    + rewrite forward_eq by auto. constructor; cbn [content cursor sel put iwidth].
      * apply gs_firstn_app. lia.
      * intros a b Es N. exfalso. apply N. eapply has_sel_none; eauto.
      * apply V.
Qed.

Lemma left_le s p : (p <= gcount brk s)%nat -> (left_pos brk s p <= gcount brk s)%nat.
Proof. unfold left_pos. destruct p; [lia|]. intros H. repeat match goal with |- context[if ?b then _ else _] => destruct b eqn:? end; lia. Qed.
Lemma right_le s p : (right_pos brk s p <= gcount brk s)%nat.
Proof. unfold right_pos. destruct (_ <=? _)%nat eqn:E; [lia|]. apply Nat.leb_gt in E. lia. Qed.

Lemma moved_valid t c : ivalid brk t -> (c <= gcount brk (content t))%nat -> ivalid brk (put t (content t) c None).
Proof. intros V H. constructor; cbn; auto; [discriminate|apply V]. Qed.

Lemma bind_valid t k : ivalid brk t -> ivalid brk (bind brk t k).
Proof.
  intros V. assert (B : ivalid brk (by_type brk t k)).
  { unfold by_type. pose proof (i_cursor _ _ V). destruct (ik_t k); auto using insert_valid, backward_valid, forward_valid; apply moved_valid; auto using right_le; try lia.
    apply left_le; auto. }
  unfold bind. destruct (ik_ctrl k); [|exact B]. destruct (upper_eq 97 _).
  - constructor; cbn [select_all put content cursor sel iwidth]; auto; [|apply V]. intros a b E N. apply some_inj in E. injection E as <- <-. unfold gcount in *. lia.
  - destruct (upper_eq 117 _); [constructor; cbn; [lia|discriminate|apply V]|]. destruct (upper_eq 101 _); [apply moved_valid; auto; unfold gcount; lia|exact B].
Qed.

Lemma iapply_valid o t : ivalid brk t -> ivalid brk (iapply brk o t).
Proof.
  intros V. destruct o; cbn [iapply].
  - unfold update. destruct (focused t); auto using bind_valid.
  - constructor; cbn [content cursor sel put with_content iwidth]; [apply move_to_le| |apply V].
    intros a b E N. destruct (sel t) as [[a0 b0]|] eqn:Es; [|discriminate]. destruct (sel_empty _) eqn:Ee; [discriminate|].
    apply some_inj in E. unfold clamp_sel in E. cbn [fst snd] in E. injection E as <- <-. unfold sel_empty, clamp_sel in Ee. cbn [fst snd] in Ee.
    unfold gcount in *. assert (a0 <> b0) by (intros ->; lia). pose proof (i_sel _ _ V a0 b0 Es H). lia.
  - constructor; cbn; [apply move_to_le|discriminate|apply V].
  - destruct V; constructor; auto.
  - destruct V; constructor; auto. cbn. destruct (w <? 1) eqn:E; lia.
  - destruct V; constructor; cbn; auto. apply move_to_le.
  - constructor; cbn [with_selection put content cursor sel iwidth]; [unfold clamp_sel; cbn; unfold gcount; lia| |apply V].
    intros x y E N. apply some_inj in E. unfold clamp_sel, new_sel in E. destruct (_ <? _)%nat eqn:L; cbn [fst snd] in E; injection E as <- <-; unfold gcount in *; lia.
  - destruct V; constructor; cbn; auto. discriminate.
Qed.
Lemma iapply_all_valid os : forall t, ivalid brk t -> ivalid brk (iapply_all brk os t).
Proof. induction os as [|o os IH]; intros t V; [exact V|]. apply IH, iapply_valid, V. Qed.
Lemma new_ivalid w : ivalid brk (new_inp w).
Proof. constructor; cbn; auto; [discriminate|]. destruct (w <? 1) eqn:E; lia. Qed.

(** The typed character is a cluster of its own. *)
Lemma seg_split s1 : forall left cur s2, cur <> [] -> match s2 with [] => True | c :: _ => brk (rev s1 ++ left) c = true end ->
  exists g, seg left cur (s1 ++ s2) = seg left cur s1 ++ g.
Proof.
  induction s1 as [|x s1 IH]; intros left cur s2 Hc Hb.
  - cbn [app]. destruct cur as [|y cur]; [congruence|]. destruct s2 as [|c s2]; [exists []; now rewrite app_nil_r|].
    cbn [seg_from]. cbn in Hb. rewrite Hb. eexists. reflexivity.
  - cbn [app seg_from]. destruct cur as [|y cur]; [congruence|].
    assert (Hb' : match s2 with [] => True | c :: _ => brk (rev s1 ++ x :: left) c = true end).
    { destruct s2; auto. cbn [rev] in Hb. rewrite <- app_assoc in Hb. exact Hb. }
    destruct (brk left x).
    + destruct (IH (x :: left) [x] s2 ltac:(discriminate) Hb') as (g & ->). exists g. reflexivity.
    + apply IH; auto. destruct cur; discriminate.
Qed.
Lemma gs_split s1 s2 : match s2 with [] => True | c :: _ => brk (rev s1) c = true end -> exists g, gs (s1 ++ s2) = gs s1 ++ g.
Proof.
  intros H. destruct s1 as [|x s1]; [exists (gs s2); reflexivity|]. apply (seg_split s1 [x] [x] s2); [discriminate|]. exact H.
Qed.
Lemma insert_cursor t r : ivalid brk t -> has_sel t = false ->
  brk (rev (ibefore brk t)) r = true \/ ibefore brk t = [] ->
  match iafter brk t with [] => True | c :: _ => brk (rev (ibefore brk t ++ [r])) c = true end ->
  ibefore brk (insert_rune brk t r) = ibefore brk t ++ [r] /\ iafter brk (insert_rune brk t r) = iafter brk t.
Proof.
  intros V H B1 B2. destruct (insert_eq t r V H) as (C & P & _).
  set (b := ibefore brk t) in *. set (a := iafter brk t) in *.
  assert (Gb : gs b = firstn (cursor t) (gs (content t))) by apply gs_prefix.
  assert (Lb : length (gs b) = cursor t) by (rewrite Gb, firstn_length; destruct V; lia).
  assert (G1 : exists g, gs (b ++ [r]) = gs b ++ g).
  { destruct B1 as [B1| ->]; [apply gs_split; exact B1|exists (gs [r]); reflexivity]. }
  destruct G1 as (g1 & G1).
  assert (E1 : g1 = [[r]]).
  { pose proof (gs_concat (b ++ [r])) as X. rewrite G1, concat_app, gs_concat in X. apply app_inv_head in X.
    pose proof (seg_nonempty (b ++ [r]) [] []) as N. fold (gs (b ++ [r])) in N. rewrite G1 in N. apply Forall_app in N as [_ N].
    destruct g1 as [|y g1]; [discriminate|]. inversion N; subst. destruct y as [|z y]; [congruence|]. cbn in X. injection X as -> X.
    destruct y; [|discriminate]. destruct g1 as [|w g1]; [reflexivity|]. inversion H3; subst. destruct w; [congruence|discriminate]. }
  subst g1. destruct (gs_split (b ++ [r]) a B2) as (g2 & G2).
  assert (G3 : gs (b ++ [r] ++ a) = (gs b ++ [[r]]) ++ g2) by (rewrite app_assoc, G2, G1; reflexivity).
  assert (Lc : cursor (insert_rune brk t r) = length (gs b ++ [[r]])).
  { rewrite P, G3, !app_length, Lb. cbn [length]. lia. }
  unfold ibefore at 1, iafter at 1. rewrite C, G3, Lc. rewrite firstn_app, skipn_app, Nat.sub_diag, firstn_all, skipn_all. cbn [firstn skipn app].
  rewrite app_nil_r, concat_app, gs_concat. cbn [concat app]. split; [reflexivity|].
  pose proof (gs_concat (b ++ [r] ++ a)) as X. rewrite G3, !concat_app, gs_concat in X. cbn [concat app] in X. rewrite <- app_assoc in X.
  apply app_inv_head in X. now injection X.
Qed.
End Input.

(* ---------- drawing ---------- *)
Lemma nonempty_len (l : list (list Z)) : Forall (fun g => g <> []) l -> (length l <= length (concat l))%nat.
Proof. induction 1 as [|x l Hx _ IH]; cbn; [lia|]. rewrite app_length. destruct x; [congruence|cbn; lia]. Qed.
Lemma gs_len brk s : (length (graphemes brk s) <= length s)%nat.
Proof. rewrite <- (gs_concat brk s) at 2. apply nonempty_len, seg_nonempty. Qed.
Lemma enc_len s : (length s <= length (enc s))%nat.
Proof. unfold enc. induction s as [|c s IH]; cbn; [lia|]. rewrite app_length. pose proof (enc_rune_ne c). destruct (enc_rune c); [congruence|cbn; lia]. Qed.
Lemma slice_some s i j : 0 <= i <= j -> j <= Z.of_nat (length s) -> slice s i j = Some (firstn (Z.to_nat (j - i)) (skipn (Z.to_nat i) s)).
Proof. intros H1 H2. unfold slice. replace (_ && _ && _) with true by lia. reflexivity. Qed.

Lemma render_total brk t : ivalid brk t -> exists d, render_content brk t = Some d.
Proof.
  intros [Hc _ Hw]. unfold render_content. pose proof (split_parts brk (content t) (cursor t) Hc) as P.
  destruct (split_at brk (content t) (cursor t)) as [[b a] c]. destruct P as (_ & _ & E & _). rewrite E.
  unfold bytes. pose proof (gs_len brk (content t)). pose proof (enc_len (content t)).
  destruct (_ <=? iwidth t) eqn:L; [eauto|]. cbv zeta. replace (Z.of_nat (cursor t) <? 0) with false by lia.
  set (n := Z.of_nat (length (enc (content t)))) in *.
  match goal with |- context [slice _ ?x ?y] => assert (X : 0 <= x <= y /\ y <= n); [|set (ve := y) in *; set (so := x) in *] end.
  { destruct (0 + iwidth t <=? _) eqn:E1; destruct (n <? _) eqn:E2; lia. }
  clearbody ve. clearbody so.
  destruct X as [X1 X2]. rewrite slice_some by auto. destruct (focused t && _ && _) eqn:F; [|eauto].
  set (vis := firstn _ _). destruct (Z.of_nat (cursor t) - so <=? Z.of_nat (length vis)) eqn:F1; [|eauto].
  rewrite slice_some by lia. eauto.
Qed.

Lemma enc_ascii s : ascii s -> enc s = s.
Proof.
  unfold enc. induction 1 as [|c s Hc _ IH]; [reflexivity|]. cbn [flat_map]. rewrite IH.
  assert (enc_rune c = [c]) as ->; [|reflexivity]. unfold enc_rune. replace (c <? 128) with true by lia. reflexivity.
Qed.
Lemma seg_every s : forall left x, seg_from every left [x] s = map (fun c => [c]) (x :: s).
Proof. induction s as [|c s IH]; intros left x; [reflexivity|]. cbn [seg_from every]. rewrite IH. reflexivity. Qed.
Lemma gs_every s : graphemes every s = map (fun c => [c]) s.
Proof. destruct s as [|x s]; [reflexivity|]. apply seg_every. Qed.
Lemma concat_single (s : list Z) : concat (map (fun c => [c]) s) = s.
Proof. induction s; cbn; f_equal; auto. Qed.
Lemma ibefore_every t : ibefore every t = firstn (cursor t) (content t).
Proof. unfold ibefore. now rewrite gs_every, firstn_map, concat_single. Qed.
Lemma iafter_every t : iafter every t = skipn (cursor t) (content t).
Proof. unfold iafter. now rewrite gs_every, skipn_map, concat_single. Qed.

Lemma firstn_plus {A} a b (l : list A) : firstn a l ++ firstn b (skipn a l) = firstn (a + b) l.
Proof. revert l. induction a; intros l; [reflexivity|]. destruct l; cbn; [now rewrite firstn_nil|]. f_equal. apply IHa. Qed.
Lemma skipn_plus {A} a b (l : list A) : skipn b (skipn a l) = skipn (a + b) l.
Proof. revert l. induction a; intros l; [reflexivity|]. destruct l; cbn; [now rewrite skipn_nil|]. apply IHa. Qed.
Lemma nth_single (s : list Z) p : nth p (map (fun c => [c]) s) [] = firstn 1 (skipn p s).
Proof. revert p. induction s as [|x s IH]; intros [|p]; try reflexivity. exact (IH p). Qed.
Lemma ascii_sub s n : ascii s -> ascii (firstn n s) /\ ascii (skipn n s).
Proof. intros H. unfold ascii in *. rewrite <- (firstn_skipn n s) in H. apply Forall_app in H. exact H. Qed.

Lemma render_window t : ivalid every t -> ascii (content t) -> focused t = true ->
  exists x b a c y, render_content every t = Some (WithCell b a c) /\ content t = x ++ (b ++ a ++ c) ++ y /\
    x ++ b = ibefore every t /\ a ++ c ++ y = iafter every t /\ (length a <= 1)%nat /\ (a = [] -> iafter every t = []) /\
    Z.of_nat (length (b ++ a ++ c)) <= iwidth t.
Proof.
  intros V As Hf. pose proof V as [Hc _ Hw]. rewrite ibefore_every, iafter_every. rewrite gs_every, map_length in Hc.
  unfold render_content. assert (SP : split_at every (content t) (cursor t) = (firstn (cursor t) (content t), firstn 1 (skipn (cursor t) (content t)), skipn (S (cursor t)) (content t))).
  { unfold split_at. rewrite gs_every, map_length, firstn_map, skipn_map, !concat_single, nth_single. destruct (_ <? _)%nat eqn:E; [reflexivity|].
    apply Nat.ltb_ge in E. rewrite firstn_all2, !skipn_all2 by lia. reflexivity. }
  rewrite SP. set (s := content t) in *. set (p := cursor t) in *.
  assert (SA : forall q, firstn 1 (skipn p q) ++ skipn (S p) q = skipn p q :> list Z).
  { intros q. replace (S p) with (p + 1)%nat by lia. rewrite <- skipn_plus. apply firstn_skipn. }
  rewrite SA, firstn_skipn. unfold bytes. rewrite (enc_ascii s As), Hf.
  destruct (Z.of_nat (length s) <=? iwidth t) eqn:L.
  - exists [], (firstn p s), (firstn 1 (skipn p s)), (skipn (S p) s), []. rewrite !enc_ascii by (repeat apply ascii_sub; auto).
    split; [reflexivity|]. rewrite !app_nil_r. cbn [app]. rewrite SA, firstn_skipn. repeat split; auto.
    + rewrite firstn_length. lia.
    + intros Ha. destruct (skipn p s); [auto|discriminate].
    + lia.
  - cbv zeta. replace (Z.of_nat p <? 0) with false by lia. set (n := Z.of_nat (length s)) in *.
    set (w := iwidth t) in *.
    match goal with |- context [slice _ ?x ?y] => assert (X : 0 <= x <= y /\ y <= n /\ x <= Z.of_nat p < x + w /\ (y = x + w \/ y = n) /\ y <= x + w /\ Z.of_nat p <= y); [|set (ve := y) in *; set (so := x) in *] end.
    { destruct (0 + w <=? _) eqn:E1; destruct (n <? _) eqn:E2; lia. }
    clearbody ve. clearbody so. destruct X as (X1 & X2 & X3 & X4 & X5 & X6). rewrite slice_some by auto.
    cbn [andb]. replace (so <=? Z.of_nat p) with true by lia. replace (Z.of_nat p <? so + w) with true by lia. cbn [andb].
    set (vis := firstn (Z.to_nat (ve - so)) (skipn (Z.to_nat so) s)).
    assert (Lv : Z.of_nat (length vis) = ve - so) by (subst vis; rewrite firstn_length, skipn_length; lia). rewrite Lv.
    replace (Z.of_nat p - so <=? ve - so) with true by lia. rewrite slice_some by lia. cbn [Z.to_nat skipn].
    set (i := Z.to_nat (Z.of_nat p - so)). replace (Z.of_nat p - so - 0) with (Z.of_nat p - so) by lia. fold i.
    assert (Ei : (Z.to_nat so + i = p)%nat) by (subst i; lia).
    assert (Av : ascii vis) by (apply ascii_sub, ascii_sub, As).
    assert (Ev : vis ++ skipn (Z.to_nat ve) s = skipn (Z.to_nat so) s).
    { replace (Z.to_nat ve) with (Z.to_nat so + Z.to_nat (ve - so))%nat by lia. rewrite <- skipn_plus. apply firstn_skipn. }
    exists (firstn (Z.to_nat so) s), (firstn i vis), (firstn 1 (skipn i vis)), (skipn (S i) vis), (skipn (Z.to_nat ve) s).
    assert (SB : firstn 1 (skipn i vis) ++ skipn (S i) vis = skipn i vis).
    { replace (S i) with (i + 1)%nat by lia. rewrite <- skipn_plus. apply firstn_skipn. }
    split.
    { assert (A1 : (if Z.of_nat p - so <? ve - so then enc (firstn 1 (skipn i vis)) else []) = firstn 1 (skipn i vis)).
      { destruct (_ <? _) eqn:Q; [apply enc_ascii, ascii_sub, ascii_sub, Av|]. rewrite skipn_all2 by lia. reflexivity. }
      assert (A2 : (if Z.of_nat p - so + 1 <? ve - so then skipn (Z.to_nat (Z.of_nat p - so + 1)) vis else []) = skipn (S i) vis).
      { replace (Z.to_nat (Z.of_nat p - so + 1)) with (S i) by lia. destruct (Z.of_nat p - so + 1 <? ve - so) eqn:Q; [reflexivity|]. rewrite skipn_all2 by lia. reflexivity. }
      rewrite A1, A2. reflexivity. }
    rewrite SB, firstn_skipn. split; [rewrite Ev; symmetry; apply firstn_skipn|].
    assert (FB : firstn (Z.to_nat so) s ++ firstn i vis = firstn p s).
    { subst vis. rewrite firstn_firstn. replace (Nat.min i (Z.to_nat (ve - so))) with i by lia. rewrite firstn_plus. f_equal. exact Ei. }
    assert (FA : skipn i vis ++ skipn (Z.to_nat ve) s = skipn p s).
    { rewrite <- Ei. rewrite <- skipn_plus, <- Ev. rewrite skipn_app. replace (i - length vis)%nat with 0%nat by lia. reflexivity. }
    split; [exact FB|]. split; [rewrite app_assoc, SB; exact FA|]. split; [rewrite firstn_length; lia|]. split; [|lia].
    intros Ha. assert (Z0 : skipn i vis = []) by (destruct (skipn i vis); [auto|discriminate]).
    assert (length (skipn i vis) = 0%nat) by now rewrite Z0. rewrite skipn_length in H. apply skipn_all2. lia.
Qed.
