From Verif Require Import Prelude Utf8 KeysModel MdModel.

(* ---------- C39 ---------- *)
(** A centred modal that fits is fully inside the terminal, its margins differ by at most one cell; one that does not fit starts
    at the left or top edge. *)
Theorem C39_centred : forall m, pos m = None ->
  let '(x, y) := position m in
  0 <= x /\ 0 <= y /\
  (width m <= tw m -> x + width m <= tw m /\ 0 <= (tw m - width m - x) - x <= 1) /\ (tw m < width m -> x = 0) /\
  (height m <= th m -> y + height m <= th m /\ 0 <= (th m - height m - y) - y <= 1) /\ (th m < height m -> y = 0).
Proof.
  intros m P. unfold position. rewrite P. assert (C : forall t w, 0 <= center1 t w /\ (w <= t -> center1 t w + w <= t /\ 0 <= (t - w - center1 t w) - center1 t w <= 1) /\ (t < w -> center1 t w = 0)).
  { intros t w. unfold center1. cbv zeta. destruct (Z_le_gt_dec w t).
    - rewrite Z.quot_div_nonneg by lia. pose proof (Z.div_mod (t - w) 2 ltac:(lia)). pose proof (Z.mod_pos_bound (t - w) 2 ltac:(lia)). replace (_ <? 0) with false by lia. lia.
    - assert (Z.quot (t - w) 2 <= 0). { replace (t - w) with (- (w - t)) by lia. rewrite Z.quot_opp_l by lia. rewrite Z.quot_div_nonneg by lia. pose proof (Z.div_pos (w - t) 2). lia. }
      destruct (_ <? 0) eqn:?; lia. }
  pose proof (C (tw m) (width m)). pose proof (C (th m) (height m)). tauto.
Qed.
Section Keys.
Variable fold_eq : list Z -> list Z -> bool.
Definition md_ok (m : modal) : Prop := (btns m = [] /\ foc m = 0) \/ 0 <= foc m < nbtn m.
Lemma next_ok m : md_ok m -> md_ok (focus_next m).
Proof using. clear fold_eq. intros K. unfold focus_next. destruct (nbtn m =? 0) eqn:E; auto. destruct K as [[K _]|K]; [unfold nbtn in E; rewrite K in E; discriminate|]. right. unfold nbtn in *. cbn [set_foc foc btns]. rewrite Z.rem_mod_nonneg by lia. apply Z.mod_pos_bound. lia. Qed.
Lemma prev_ok m : md_ok m -> md_ok (focus_prev m).
Proof using. clear fold_eq. intros K. unfold focus_prev. destruct (nbtn m =? 0) eqn:E; auto. destruct K as [[K _]|K]; [unfold nbtn in E; rewrite K in E; discriminate|]. right. unfold nbtn in *. cbn [set_foc foc btns]. destruct (_ <? 0) eqn:?; lia. Qed.
Lemma mstep_ok m o : md_ok m -> md_ok (mstep fold_eq m o).
Proof using.
  intros K. destruct o as [g|w h|x y| |bs|b| | |b]; cbn [mstep]; try exact K.
  - unfold update. destruct (negb (visible m)); auto. destruct g as [k|w h|]; cbn [fst]; try exact K. unfold handle_key.
    destruct (matches k (kclose (kb m))); [exact K|]. destruct (matches k (knext (kb m))); [now apply next_ok|]. destruct (matches k (kprev (kb m))); [now apply prev_ok|].
    destruct (if matches k (kact (kb m)) then focused_button m else None); [exact K|]. destruct (find _ _); exact K.
  - unfold md_ok, nbtn. cbn [btns foc]. destruct bs; [left; auto|right; cbn [length]; lia].
Qed.
(** After any calls, messages and keys, with any key bindings, the focus is on an existing button (or there is none). *)
Theorem C39_focus_on_existing_button : forall t c ops, let m := msteps fold_eq ops (new_modal t c) in
  (btns m = [] /\ foc m = 0 /\ focused_button m = None) \/ exists b, nth_error (btns m) (Z.to_nat (foc m)) = Some b /\ 0 <= foc m < Z.of_nat (length (btns m)) /\ focused_button m = Some b.
Proof using.
  intros t c ops. assert (K : forall m, md_ok m -> md_ok (msteps fold_eq ops m)) by (induction ops as [|o ops IH]; intros m K; [exact K|apply IH, mstep_ok, K]).
  intros m. assert (Km : md_ok m) by (apply K; left; auto). clearbody m. destruct Km as [[E F]|B].
  - left. repeat split; auto. unfold focused_button, nbtn. now rewrite E.
  - right. unfold nbtn in B. unfold focused_button, nbtn. replace (_ || _) with false by lia. destruct (nth_error (btns m) (Z.to_nat (foc m))) as [b|] eqn:E; [eauto|]. apply nth_error_None in E. lia.
Qed.
(** Default bindings, visible modal: Tab and Right go one button on, round the end, Shift-Tab and Left one back, Enter presses
    the focused button (with no buttons a button shortcut may still match), Escape hides. *)
Theorem C39_keys : forall m, md_ok m -> visible m = true -> kb m = default_bindings ->
  let n := nbtn m in
  (forall k, k = plain KTab \/ k = plain KRight -> update fold_eq m (MKey k) = ((if n =? 0 then m else set_foc m ((foc m + 1) mod n)), None)) /\
  (forall k, k = Key KTab 0 false false true \/ k = plain KLeft -> update fold_eq m (MKey k) = ((if n =? 0 then m else set_foc m ((foc m - 1) mod n)), None)) /\
  (forall b, focused_button m = Some b -> update fold_eq m (MKey (plain KEnter)) = (m, Some (baction b))) /\
  update fold_eq m (MKey (plain KEsc)) = (set_visible m false, None) /\
  (forall c b, (forall b', In b' (btns m) -> fold_eq [c] (bkey b') = true -> b' = b) -> In b (btns m) -> fold_eq [c] (bkey b) = true -> c <> 8594 -> c <> 8592 ->
     update fold_eq m (MKey (rune_key c)) = (m, Some (baction b))).
Proof using.
  intros m K V B n. unfold update. rewrite V. cbn [negb].
  assert (Nx : focus_next m = if n =? 0 then m else set_foc m ((foc m + 1) mod n)).
  { unfold focus_next. fold n. destruct (n =? 0) eqn:E; auto. destruct K as [[K1 _]|K1]; [subst n; unfold nbtn in E; rewrite K1 in E; discriminate|]. fold n in K1. rewrite Z.rem_mod_nonneg by lia. reflexivity. }
  assert (Pv : focus_prev m = if n =? 0 then m else set_foc m ((foc m - 1) mod n)).
  { unfold focus_prev. fold n. destruct (n =? 0) eqn:E; auto. destruct K as [[K1 _]|K1]; [subst n; unfold nbtn in E; rewrite K1 in E; discriminate|]. fold n in K1. f_equal.
    destruct (_ <? 0) eqn:L; [|rewrite Z.mod_small; lia]. replace (foc m - 1) with (-1) by lia. rewrite <- (Z_mod_plus_full (-1) 1 n). rewrite Z.mod_small; lia. }
  split; [|split; [|split; [|split]]].
  - intros k [H|H]; subst k; unfold handle_key; rewrite B; cbn -[focus_next]; now rewrite Nx.
  - intros k [H|H]; subst k; unfold handle_key; rewrite B; cbn -[focus_prev]; now rewrite Pv.
  - intros b F. unfold handle_key. rewrite B. cbn -[focused_button]. now rewrite F.
  - unfold handle_key. rewrite B. reflexivity.
  - intros c b U I F N1 N2. unfold handle_key. rewrite B.
    assert (Kc : key_string (rune_key c) = [c]) by reflexivity. unfold matches. rewrite Kc. cbn [default_bindings kclose knext kprev kact existsb].
    assert (M : forall s, s <> [c] -> list_eqb [c] s = false).
    { intros s N. destruct s as [|a [|a2 s]]; cbn; auto; destruct (Z.eqb_spec c a); auto; subst; congruence. }
    rewrite !M; try discriminate; try congruence. cbn [orb].
    destruct (find (fun b0 => fold_eq [c] (bkey b0)) (btns m)) as [b'|] eqn:Fd.
    + apply find_some in Fd as [I' F']. now rewrite (U b' I' F').
    + apply find_none with (x := b) in Fd; auto. congruence.
Qed.
(** i Tabs move i places round, so every button is reached. *)
Theorem C39_tab_cycles : forall i m, md_ok m -> visible m = true -> kb m = default_bindings -> btns m <> [] ->
  foc (msteps fold_eq (repeat (OMsg (MKey (plain KTab))) i) m) = (foc m + Z.of_nat i) mod nbtn m.
Proof using.
  induction i as [|i IH]; intros m K V B N.
  - cbn. rewrite Z.add_0_r. destruct K as [[K _]|K]; [congruence|]. rewrite Z.mod_small; lia.
  - cbn [repeat]. change (msteps fold_eq (OMsg (MKey (plain KTab)) :: repeat (OMsg (MKey (plain KTab))) i) m) with (msteps fold_eq (repeat (OMsg (MKey (plain KTab))) i) (fst (update fold_eq m (MKey (plain KTab))))).
    destruct (C39_keys m K V B) as [T _]. rewrite (T (plain KTab)) by auto. cbn [fst]. assert (E : nbtn m =? 0 = false) by (unfold nbtn; destruct (btns m); [congruence|cbn [length]; lia]). rewrite E.
    assert (P : 0 < nbtn m) by (unfold nbtn in *; lia).
    rewrite IH; auto; [|right; cbn [set_foc foc]; unfold nbtn at 2; cbn [set_foc btns]; fold (nbtn m); now apply Z.mod_pos_bound].
    cbn [set_foc foc]. change (nbtn (set_foc m ((foc m + 1) mod nbtn m))) with (nbtn m). rewrite Zplus_mod_idemp_l. f_equal. lia.
Qed.
(** A hidden modal ignores every message. *)
Theorem C39_hidden_ignores : forall m g, visible m = false -> update fold_eq m g = (m, None).
Proof using. intros m g V. unfold update. now rewrite V. Qed.

(** For any key bindings, in this order: a Close key hides, a NextButton key goes on, a PreviousButton key goes back, an
    ActivateButton key presses the focused button, and any other key presses the first button whose own key it is (letter case
    aside); a key that is none of these changes nothing. *)
Definition bound (k : keymsg) (ks : list (list Z)) : Prop := In (key_string k) ks.
Lemma matches_bound k ks : matches k ks = true <-> bound k ks.
Proof using. clear fold_eq. unfold matches, bound. rewrite existsb_exists. split; [intros (x & I & E); apply list_eqb_eq in E; now subst|intros I; exists (key_string k); split; [exact I|apply list_eqb_refl]]. Qed.
Lemma matches_unbound k ks : ~ bound k ks -> matches k ks = false.
Proof using. clear fold_eq. intros N. destruct (matches k ks) eqn:E; auto. apply matches_bound in E. tauto. Qed.
Theorem C39_bindings : forall m k, md_ok m -> visible m = true -> let n := nbtn m in let u := update fold_eq m (MKey k) in
  (bound k (kclose (kb m)) -> u = (set_visible m false, None)) /\
  (~ bound k (kclose (kb m)) -> bound k (knext (kb m)) -> u = ((if n =? 0 then m else set_foc m ((foc m + 1) mod n)), None)) /\
  (~ bound k (kclose (kb m)) -> ~ bound k (knext (kb m)) -> bound k (kprev (kb m)) -> u = ((if n =? 0 then m else set_foc m ((foc m - 1) mod n)), None)) /\
  (~ bound k (kclose (kb m)) -> ~ bound k (knext (kb m)) -> ~ bound k (kprev (kb m)) ->
     (forall b, bound k (kact (kb m)) -> focused_button m = Some b -> u = (m, Some (baction b))) /\
     (~ bound k (kact (kb m)) \/ btns m = [] -> (forall b, In b (btns m) -> fold_eq (key_string k) (bkey b) = false) -> u = (m, None)) /\
     (~ bound k (kact (kb m)) -> forall pre b suf, btns m = pre ++ b :: suf -> (forall b', In b' pre -> fold_eq (key_string k) (bkey b') = false) -> fold_eq (key_string k) (bkey b) = true -> u = (m, Some (baction b)))).
Proof using.
  intros m k K V n u. subst u. unfold update. rewrite V. cbn [negb]. unfold handle_key.
  assert (Nx : focus_next m = if n =? 0 then m else set_foc m ((foc m + 1) mod n)).
  { unfold focus_next. fold n. destruct (n =? 0) eqn:E; auto. destruct K as [[K1 _]|K1]; [subst n; unfold nbtn in E; rewrite K1 in E; discriminate|]. fold n in K1. rewrite Z.rem_mod_nonneg by lia. reflexivity. }
  assert (Pv : focus_prev m = if n =? 0 then m else set_foc m ((foc m - 1) mod n)).
  { unfold focus_prev. fold n. destruct (n =? 0) eqn:E; auto. destruct K as [[K1 _]|K1]; [subst n; unfold nbtn in E; rewrite K1 in E; discriminate|]. fold n in K1. f_equal.
    destruct (_ <? 0) eqn:L; [|rewrite Z.mod_small; lia]. replace (foc m - 1) with (-1) by lia. rewrite <- (Z_mod_plus_full (-1) 1 n). rewrite Z.mod_small; lia. }
  split; [intros B1; now rewrite (proj2 (matches_bound _ _) B1)|]. split; [intros B1 B2; rewrite (matches_unbound _ _ B1), (proj2 (matches_bound _ _) B2); now rewrite Nx|].
  split; [intros B1 B2 B3; rewrite (matches_unbound _ _ B1), (matches_unbound _ _ B2), (proj2 (matches_bound _ _) B3); now rewrite Pv|].
  intros B1 B2 B3. rewrite (matches_unbound _ _ B1), (matches_unbound _ _ B2), (matches_unbound _ _ B3). split; [|split].
  - intros b A F. rewrite (proj2 (matches_bound _ _) A), F. reflexivity.
  - intros A N. replace (if matches k (kact (kb m)) then focused_button m else None) with (@None button) by (destruct A as [A|A]; [now rewrite (matches_unbound _ _ A)|unfold focused_button, nbtn; rewrite A; now destruct (matches _ _)]).
    destruct (find _ (btns m)) as [b|] eqn:F; [|reflexivity]. apply find_some in F as [I F]. rewrite (N b I) in F. discriminate.
  - intros A pre b suf E N F. rewrite (matches_unbound _ _ A). rewrite E. assert (X : find (fun b0 => fold_eq (key_string k) (bkey b0)) (pre ++ b :: suf) = Some b).
    { clear E. induction pre as [|p pre IH]; cbn; [now rewrite F|]. rewrite (N p (or_introl eq_refl)). apply IH. intros b' I. apply N. now right. }
    now rewrite X.
Qed.
(** No key does anything but move the focus or hide, and only keys press buttons. *)
Theorem C39_messages_keep_the_rest : forall m g, let m' := fst (update fold_eq m g) in
  title m' = title m /\ content m' = content m /\ btns m' = btns m /\ width m' = width m /\ height m' = height m /\ pos m' = pos m /\ dim m' = dim m /\ kb m' = kb m /\
  (forall k, g = MKey k -> tw m' = tw m /\ th m' = th m) /\ (g = MOther -> update fold_eq m g = (m, None)) /\
  (forall w h, g = MResize w h -> snd (update fold_eq m g) = None /\ foc m' = foc m /\ visible m' = visible m).
Proof using.
  intros m g m'. subst m'. unfold update. destruct (negb (visible m)); [repeat split; auto; congruence|]. destruct g as [k|w h|]; [|repeat split; auto; congruence|repeat split; auto; congruence].
  unfold handle_key, focus_next, focus_prev. destruct (matches k (kclose (kb m))); [repeat split; auto; congruence|].
  destruct (matches k (knext (kb m))); [destruct (nbtn m =? 0); repeat split; auto; congruence|]. destruct (matches k (kprev (kb m))); [destruct (nbtn m =? 0); repeat split; auto; congruence|].
  destruct (if matches k (kact (kb m)) then focused_button m else None); [repeat split; auto; congruence|]. destruct (find _ _); repeat split; auto; congruence.
Qed.
(** Each call changes only what it names; Buttons focuses the first one. *)
Theorem C39_calls : forall m,
  (forall w h, mstep fold_eq m (OSize w h) = Modal (title m) (content m) (btns m) w h (pos m) (foc m) (visible m) (dim m) (kb m) (tw m) (th m)) /\
  (forall x y, mstep fold_eq m (OPos x y) = Modal (title m) (content m) (btns m) (width m) (height m) (Some (x, y)) (foc m) (visible m) (dim m) (kb m) (tw m) (th m)) /\
  mstep fold_eq m OCentered = Modal (title m) (content m) (btns m) (width m) (height m) None (foc m) (visible m) (dim m) (kb m) (tw m) (th m) /\
  (forall bs, mstep fold_eq m (OButtons bs) = Modal (title m) (content m) bs (width m) (height m) (pos m) 0 (visible m) (dim m) (kb m) (tw m) (th m)) /\
  (forall b, mstep fold_eq m (ODim b) = Modal (title m) (content m) (btns m) (width m) (height m) (pos m) (foc m) (visible m) b (kb m) (tw m) (th m)) /\
  mstep fold_eq m OShow = Modal (title m) (content m) (btns m) (width m) (height m) (pos m) (foc m) true (dim m) (kb m) (tw m) (th m) /\
  mstep fold_eq m OHide = Modal (title m) (content m) (btns m) (width m) (height m) (pos m) (foc m) false (dim m) (kb m) (tw m) (th m) /\
  (forall b, mstep fold_eq m (OBind b) = Modal (title m) (content m) (btns m) (width m) (height m) (pos m) (foc m) (visible m) (dim m) b (tw m) (th m)) /\
  (forall x y, position (mstep fold_eq m (OPos x y)) = (x, y)).
Proof using. intros m. repeat split. Qed.
(** A new modal: hidden, 40x10, centred for 80x24, no buttons, no dimming, default keys. *)
Theorem C39_new : forall t c, let m := new_modal t c in
  visible m = false /\ width m = 40 /\ height m = 10 /\ position m = (20, 7) /\ btns m = [] /\ focused_action m = [] /\ dim m = false /\ title m = t /\ content m = c /\
  kclose (kb m) = [key_string (plain KEsc)] /\ knext (kb m) = [key_string (plain KTab); key_string (plain KRight)] /\
  kprev (kb m) = [key_string (Key KTab 0 false false true); key_string (plain KLeft)] /\ kact (kb m) = [key_string (plain KEnter)].
Proof using. clear. intros t c. repeat split. Qed.
(** FocusedButton() is the action Enter sends. *)
Theorem C39_focused_action : forall m, md_ok m -> visible m = true -> kb m = default_bindings -> btns m <> [] -> update fold_eq m (MKey (plain KEnter)) = (m, Some (focused_action m)).
Proof using.
  intros m K V B N. destruct (C39_keys m K V B) as (_ & _ & E & _). unfold focused_action. destruct (focused_button m) as [b|] eqn:F; [now apply E|].
  exfalso. destruct K as [[K _]|K]; [tauto|]. unfold focused_button in F. replace ((nbtn m =? 0) || (foc m <? 0) || (nbtn m <=? foc m)) with false in F by lia. apply nth_error_None in F. unfold nbtn in K. lia.
Qed.

(* ---------- C84 ---------- *)
(** Shown while the terminal is resized: centred for the new size. *)
Theorem C84_resize_while_shown : forall m w h, visible m = true -> pos m = None ->
  let m' := fst (update fold_eq m (MResize w h)) in tw m' = w /\ th m' = h /\ position m' = (center1 w (width m), center1 h (height m)).
Proof using. intros m w h V P. unfold update. rewrite V. cbn. unfold position. cbn [pos tw th width height]. rewrite P. auto. Qed.
End Keys.
(** Hidden during the resize: shown again it is still placed for the old size, here outside the terminal. *)
Theorem C181_resize_while_hidden_refuted : forall fold_eq t c,
  let m := msteps fold_eq [OHide; OMsg (MResize 41 11); OShow] (new_modal t c) in tw m = 80 /\ th m = 24 /\ position m = (20, 7) /\ 20 + width m > 41.
Proof. intros f t c. repeat split. Qed.

(* ---------- C85 ---------- *)
Lemma pad_ok t w : 0 <= w -> exists s, pad_or_truncate t w = Some s /\ Z.of_nat (length s) = w.
Proof.
  intros W. unfold pad_or_truncate. cbv zeta. destruct (w <? Z.of_nat (length t)) eqn:E.
  - destruct (3 <? w) eqn:E3.
    + eexists. split; [reflexivity|]. rewrite app_length, firstn_length. cbn [length]. lia.
    + replace (w <? 0) with false by lia. eexists. split; [reflexivity|]. rewrite firstn_length. lia.
  - unfold rep. replace (_ <? 0) with false by lia. eexists. split; [reflexivity|]. rewrite app_length, repeat_length. lia.
Qed.
Lemma all_some_ok {A} (P : A -> Prop) (l : list (option A)) : (forall x, In x l -> exists a, x = Some a /\ P a) -> exists r, all_some l = Some r /\ Forall P r.
Proof.
  induction l as [|x l IH]; intros H; [exists []; split; [reflexivity|constructor]|]. destruct (H x (or_introl eq_refl)) as (a & -> & Pa). destruct IH as (r & E & F); [intros y I; apply H; right; auto|].
  exists (a :: r). cbn [all_some obind]. rewrite E. cbn. split; auto.
Qed.
(** A modal at least 4 wide and 5 high: View never panics, and every row drawn starts at the modal's column, is exactly as wide
    as the modal, and lies within the modal's rows. *)
Definition in_box (m : modal) (r : row) : Prop :=
  rcol r = fst (position m) + 1 /\ Z.of_nat (length (cells r)) = width m /\ snd (position m) + 1 <= rrow r <= snd (position m) + height m - 1.
Theorem C85_rows_inside : forall m, 4 <= width m -> 5 <= height m -> exists rows, render_box m = Some rows /\ Forall (in_box m) rows.
Proof.
  intros m W H. unfold render_box. unfold in_box. destruct (position m) as [x y]. cbn [fst snd]. cbv zeta. apply all_some_ok. intros r I.
  assert (FR : forall a b, exists c, framed a b (rep 9472 (width m - 2)) = Some c /\ Z.of_nat (length c) = width m).
  { intros a b. unfold rep. replace (_ <? 0) with false by lia. cbn [framed obind]. eexists. split; [reflexivity|]. cbn [length]. rewrite app_length, repeat_length. cbn [length]. lia. }
  assert (BX : forall t, exists c, boxed (pad_or_truncate t (width m - 4)) = Some c /\ Z.of_nat (length c) = width m).
  { intros t. destruct (pad_ok t (width m - 4)) as (s & -> & L); [lia|]. cbn [boxed framed obind]. eexists. split; [reflexivity|]. cbn [length]. rewrite app_length. cbn [length]. rewrite app_length. cbn [length]. lia. }
  assert (FIN : forall rr o, r = obind o (fun c => Some (Row rr (x + 1) c)) -> (exists c, o = Some c /\ Z.of_nat (length c) = width m) -> y + 1 <= rr <= y + height m - 1 ->
    exists a, r = Some a /\ rcol a = x + 1 /\ Z.of_nat (length (cells a)) = width m /\ y + 1 <= rrow a <= y + height m - 1).
  { intros rr o -> (c & -> & L) B. cbn [obind]. eexists. split; [reflexivity|]. cbn. auto. }
  rewrite !in_app_iff in I. destruct I as [I|[I|[I|[I|I]]]].
  - destruct I as [<-|[]]. eapply FIN; [reflexivity|apply FR|lia].
  - destruct (title m) as [|c t]; [destruct I|]. destruct I as [<-|[<-|[]]]; (eapply FIN; [reflexivity|auto|lia]).
  - apply in_map_iff in I as ([i l] & <- & I). apply in_combine_l in I. apply in_seq in I. rewrite firstn_length in I.
    eapply FIN; [reflexivity|apply BX|]. destruct (title m); lia.
  - destruct (nbtn m =? 0); [destruct I|]. destruct I as [<-|[<-|[]]]; (eapply FIN; [reflexivity|auto|lia]).
  - destruct I as [<-|[]]. eapply FIN; [reflexivity|apply FR|lia].
Qed.
(** The dimmed background is the whole terminal, blank exactly inside the modal's rectangle. *)
Theorem C85_dimmed_background : forall m, 0 <= tw m -> 0 <= th m -> let '(x, y) := position m in
  length (dimmed m) = Z.to_nat (th m) /\
  forall r l, nth_error (dimmed m) r = Some l -> length l = Z.to_nat (tw m) /\
    forall c v, nth_error l c = Some v -> (v = 32 <-> x <= Z.of_nat c < x + width m /\ y <= Z.of_nat r < y + height m) /\ (v = 32 \/ v = 9617).
Proof.
  intros m W H. unfold dimmed. destruct (position m) as [x y]. split; [now rewrite map_length, seq_length|].
  assert (SQ : forall n i j, nth_error (seq 0 n) i = Some j -> j = i).
  { intros n i j E. assert ((i < n)%nat) by (rewrite <- (seq_length n 0); apply nth_error_Some; congruence). apply nth_error_nth with (d := 0%nat) in E. rewrite seq_nth in E; lia. }
  intros r l E. rewrite nth_error_map in E. destruct (nth_error (seq 0 (Z.to_nat (th m))) r) as [r'|] eqn:R; [|discriminate]. apply SQ in R. subst r'. apply some_inj in E. subst l. split; [now rewrite map_length, seq_length|].
  intros c v E. rewrite nth_error_map in E. destruct (nth_error (seq 0 (Z.to_nat (tw m))) c) as [c'|] eqn:C; [|discriminate]. apply SQ in C. subst c'. apply some_inj in E. subst v.
  destruct (_ && _) eqn:Q; split; auto; split; intros; try lia; try discriminate.
Qed.
(** A text cut or padded to n cells. *)
Definition fitted (t : list Z) (n : Z) (s : list Z) : Prop :=
  (Z.of_nat (length t) <= n /\ s = t ++ repeat 32 (Z.to_nat n - length t)) \/
  (n < Z.of_nat (length t) /\ 3 < n /\ s = firstn (Z.to_nat n - 3) t ++ [46; 46; 46]) \/ (n < Z.of_nat (length t) /\ n <= 3 /\ s = firstn (Z.to_nat n) t).
Lemma pad_fitted t w : 0 <= w -> exists s, pad_or_truncate t w = Some s /\ fitted t w s.
Proof.
  intros W. unfold pad_or_truncate, fitted. cbv zeta. destruct (w <? Z.of_nat (length t)) eqn:E.
  - destruct (3 <? w) eqn:E3.
    + eexists. split; [reflexivity|]. right. left. replace (Z.to_nat (w - 3)) with (Z.to_nat w - 3)%nat by lia. repeat split; lia.
    + replace (w <? 0) with false by lia. eexists. split; [reflexivity|]. right. right. repeat split; lia.
  - unfold rep. replace (_ <? 0) with false by lia. eexists. split; [reflexivity|]. left. replace (Z.to_nat (w - Z.of_nat (length t))) with (Z.to_nat w - length t)%nat by lia. split; [lia|reflexivity].
Qed.
Definition hline (l r : Z) (w : Z) : list Z := l :: repeat 9472 (Z.to_nat (w - 2)) ++ [r].
Definition textline (s : list Z) : list Z := 9474 :: 32 :: s ++ [32; 9474].
(** The lines of a text: joined with newlines they are the text, and none contains a newline. *)
Fixpoint joined (ls : list (list Z)) : list Z := match ls with [] => [] | [a] => a | a :: r => a ++ 10 :: joined r end.
Definition lines_of (t : list Z) (ls : list (list Z)) : Prop := ls <> [] /\ joined ls = t /\ Forall (fun l => ~ In 10 l) ls.
Lemma split_lines_of t : forall cur, ~ In 10 cur -> lines_of (cur ++ t) (split_lines t cur).
Proof.
  induction t as [|c t IH]; intros cur N; cbn [split_lines].
  - rewrite app_nil_r. split; [discriminate|]. split; [reflexivity|]. repeat constructor; auto.
  - destruct (c =? 10) eqn:E.
    + apply Z.eqb_eq in E. subst c. destruct (IH [] (fun x => x)) as (A & B & C). split; [discriminate|]. split; [|constructor; auto]. cbn [app] in B. destruct (split_lines t []) as [|x r] eqn:Q; [congruence|]. change (joined (cur :: x :: r)) with (cur ++ 10 :: joined (x :: r)). now rewrite B.
    + replace (cur ++ c :: t) with ((cur ++ [c]) ++ t) by (rewrite <- app_assoc; reflexivity). apply IH. rewrite in_app_iff. intros [I|[I|[]]]; [tauto|]. subst. discriminate.
Qed.
(** The button row's text: every button's label in order, the focused one between < and >, the others between [ and ]. *)
Definition mark (f : bool) (l : list Z) : list Z := if f then [60; 32] ++ l ++ [32; 62] else [91; 32] ++ l ++ [32; 93].
Fixpoint joined2 (ls : list (list Z)) : list Z := match ls with [] => [] | [a] => a | a :: r => a ++ [32; 32] ++ joined2 r end.
Definition button_row (m : modal) (s : list Z) : Prop := exists ms, s = joined2 ms /\ length ms = length (btns m) /\ forall i b, nth_error (btns m) i = Some b -> nth_error ms i = Some (mark (Z.of_nat i =? foc m) (blabel b)).
Lemma join2_joined l : join2 l = joined2 l.
Proof. induction l as [|a [|b r] IH]; cbn [join2 joined2] in *; auto; try (now rewrite IH). Qed.
Lemma button_text_row m : button_row m (button_text m).
Proof.
  unfold button_row, button_text. eexists. split; [apply join2_joined|]. split; [now rewrite map_length, combine_length, seq_length, Nat.min_id|].
  intros i b E. rewrite nth_error_map. assert (G : forall (bs : list button) k i b, nth_error bs i = Some b -> nth_error (combine (seq k (length bs)) bs) i = Some ((k + i)%nat, b)).
  { clear. induction bs as [|x bs IH]; intros k [|i] b E; cbn [nth_error] in E; try discriminate; cbn [length seq combine nth_error]; [apply some_inj in E; subst; now rewrite Nat.add_0_r|]. rewrite (IH (S k) i b E). f_equal. f_equal. lia. }
  rewrite (G _ 0%nat _ _ E). cbn [option_map Nat.add]. unfold mark. reflexivity.
Qed.
(** What View draws for a visible modal at least 4 wide: the background iff dimming is on, the top border, the title and a
    separator if there is a title, the content's first lines, as many as fit (four rows are kept for borders and buttons, two for a
    title), a separator and the button row if there are buttons, the bottom border; texts cut with an ellipsis or padded. *)
Lemma all_some_map {A} (l : list A) : all_some (map Some l) = Some l.
Proof. induction l as [|a l IH]; [reflexivity|]. cbn [map all_some obind]. now rewrite IH. Qed.
Theorem C85_box : forall m, visible m = true -> 4 <= width m -> let '(x, y) := position m in let w := width m in
  exists ls titlerow texts buttonrow rows, lines_of (content m) ls /\ fitted (title m) (w - 4) titlerow /\ (exists s, button_row m s /\ fitted s (w - 4) buttonrow) /\
  Forall2 (fun l s => fitted l (w - 4) s) (firstn (Z.to_nat (height m - (if title m then 4 else 6))) ls) texts /\
  view m = Some ((if dim m then dimmed m else []), rows) /\
  rows = [Row (y + 1) (x + 1) (hline 9484 9488 w)] ++
    (if title m then [] else [Row (y + 2) (x + 1) (textline titlerow); Row (y + 3) (x + 1) (hline 9500 9508 w)]) ++
    map (fun p => Row ((if title m then y + 2 else y + 4) + Z.of_nat (fst p)) (x + 1) (textline (snd p))) (combine (seq 0 (length texts)) texts) ++
    (if btns m then [] else [Row (y + height m - 3) (x + 1) (hline 9500 9508 w); Row (y + height m - 2) (x + 1) (textline buttonrow)]) ++
    [Row (y + height m - 1) (x + 1) (hline 9492 9496 w)].
Proof.
  intros m V W. unfold view. rewrite V. unfold render_box. destruct (position m) as [x y]. cbv zeta.
  destruct (pad_fitted (title m) (width m - 4)) as (tr & Et & Ft); [lia|]. destruct (pad_fitted (button_text m) (width m - 4)) as (br & Eb & Fb); [lia|].
  set (ls := split_lines (content m) []). set (sh := firstn (Z.to_nat (height m - (if title m then 4 else 6))) ls).
  assert (T : exists texts, Forall2 (fun l s => fitted l (width m - 4) s) sh texts /\ Forall2 (fun l s => pad_or_truncate l (width m - 4) = Some s) sh texts).
  { clear - W. induction sh as [|l sh IH]; [exists []; split; constructor|]. destruct IH as (ts & A & B). destruct (pad_fitted l (width m - 4)) as (s & E & F); [lia|]. exists (s :: ts). split; constructor; auto. }
  destruct T as (texts & F1 & F2). exists ls, tr, texts, br. eexists. split; [apply (split_lines_of (content m) []); auto|]. split; [exact Ft|]. split; [exists (button_text m); split; [apply button_text_row|exact Fb]|]. split; [exact F1|].
  split; [|reflexivity].
  assert (HL : forall a b, framed a b (rep 9472 (width m - 2)) = Some (hline a b (width m))) by (intros a b; unfold rep; replace (_ <? 0) with false by lia; reflexivity).
  assert (BX : forall t s, pad_or_truncate t (width m - 4) = Some s -> boxed (pad_or_truncate t (width m - 4)) = Some (textline s)) by (intros t s E; rewrite E; cbn [boxed framed obind]; unfold textline; cbn [app]; now rewrite <- app_assoc).
  rewrite !HL, (BX _ _ Et), (BX _ _ Eb). cbn [obind].
  assert (SH : firstn (Z.to_nat (height m - 4 - (if match title m with [] => false | _ => true end then 2 else 0))) ls = sh) by (unfold sh; f_equal; destruct (title m); lia).
  rewrite SH. clear SH.
  assert (MP : forall st, map (fun p : nat * list Z => let '(i, l) := p in obind (boxed (pad_or_truncate l (width m - 4))) (fun c => Some (Row (st + Z.of_nat i) (x + 1) c))) (combine (seq 0 (length sh)) sh) =
    map Some (map (fun p : nat * list Z => Row (st + Z.of_nat (fst p)) (x + 1) (textline (snd p))) (combine (seq 0 (length texts)) texts))).
  { intros st. generalize 0%nat. induction F2 as [|l s sh' ts E F IH]; intros k; [reflexivity|]. cbn [length seq combine map fst snd]. rewrite (BX _ _ E). cbn [obind]. f_equal. apply IH.
    clear - F1. inversion F1; subst; auto. }
  rewrite MP. clear MP.
  assert (BT : (if nbtn m =? 0 then [] else [Some (Row (y + height m - 3) (x + 1) (hline 9500 9508 (width m))); Some (Row (y + height m - 2) (x + 1) (textline br))]) =
    map Some (if btns m then [] else [Row (y + height m - 3) (x + 1) (hline 9500 9508 (width m)); Row (y + height m - 2) (x + 1) (textline br)])) by (unfold nbtn; destruct (btns m); reflexivity).
  rewrite BT. clear BT.
  assert (TT : (if match title m with [] => false | _ => true end then [Some (Row (y + 2) (x + 1) (textline tr)); Some (Row (y + 3) (x + 1) (hline 9500 9508 (width m)))] else []) =
    map Some (if title m then [] else [Row (y + 2) (x + 1) (textline tr); Row (y + 3) (x + 1) (hline 9500 9508 (width m))])) by (destruct (title m); reflexivity).
  rewrite TT. clear TT.
  match goal with |- obind (all_some (?a ++ _)) _ = _ => change a with (map Some [Row (y + 1) (x + 1) (hline 9484 9488 (width m))]) end.
  match goal with |- context [_ ++ [Some ?a]] => change [Some a] with (map Some [a]) end. rewrite <- !map_app, all_some_map. cbn [obind]. destruct (title m); reflexivity.
Qed.
(** A hidden modal draws nothing. *)
Theorem C85_hidden : forall m, visible m = false -> view m = Some ([], []).
Proof. intros m V. unfold view. now rewrite V. Qed.
Example C85_box_ex : view (msteps (fun _ _ => false) [OButtons [Button [79; 75] [111] [111]]; OSize 12 8; OShow] (new_modal [84] [97; 98; 99; 100; 101; 102; 103; 104; 105])) =
  Some ([], [Row 9 35 (hline 9484 9488 12); Row 10 35 (textline [84; 32; 32; 32; 32; 32; 32; 32]); Row 11 35 (hline 9500 9508 12); Row 12 35 (textline [97; 98; 99; 100; 101; 46; 46; 46]);
             Row 13 35 (hline 9500 9508 12); Row 14 35 (textline [60; 32; 79; 75; 32; 62; 32; 32]); Row 15 35 (hline 9492 9496 12)]).
Proof. reflexivity. Qed.

(* ---------- C182 ---------- *)
(** The last row of the modal's rectangle is never drawn: the bottom border is one row too high. *)
Theorem C182_last_row_missing_refuted : forall m rows, 4 <= width m -> 5 <= height m -> render_box m = Some rows -> forall r, In r rows -> rrow r <> snd (position m) + height m.
Proof.
  intros m rows W H E r I. destruct (C85_rows_inside m W H) as (rows' & E' & F). rewrite E in E'. apply some_inj in E'. subst rows'. rewrite Forall_forall in F. destruct (F r I) as (_ & _ & B). lia.
Qed.
(** Rows without a content line get no side borders: of a 40x10 box with one line, rows 3 to 8 are not drawn at all. *)
Theorem C182_sides_missing_refuted : exists rows, render_box (mstep (fun _ _ => false) (new_modal [] [104; 105]) OShow) = Some rows /\ map rrow rows = [8; 9; 16].
Proof. eexists. split; reflexivity. Qed.
(** With buttons, the last content line is drawn on the same row as the separator, which overwrites it. *)
Theorem C182_last_line_overwritten_refuted :
  let m := msteps (fun _ _ => false) [OButtons [Button [79; 75] [111] [111]]; OSize 20 6; OShow] (new_modal [] [97; 10; 98; 10; 99]) in
  exists rows, render_box m = Some rows /\ map rrow rows = [10; 11; 12; 12; 13; 14].
Proof. eexists. split; reflexivity. Qed.
(** Narrow modals panic. *)
Theorem C182_narrow_panics_refuted : forall m, visible m = true -> width m < 2 -> render_box m = None.
Proof.
  intros m V W. unfold render_box. destruct (position m) as [x y]. cbv zeta. unfold rep at 1. replace (_ <? 0) with true by lia. reflexivity.
Qed.
(* ---------- C183 ---------- *)
(** Widths are counted in bytes: a row with a two-byte character comes out one cell short, and a cut can fall inside a character. *)
Theorem C183_bytes_not_cells_refuted :
  (exists s, pad_or_truncate [195; 169] 8 = Some s /\ length (decode_all 20 s) = 7%nat) /\
  (exists s, pad_or_truncate [97; 98; 99; 100; 195; 169; 101; 102; 103] 8 = Some s /\ s = [97; 98; 99; 100; 195; 46; 46; 46] /\ In 65533 (decode_all 20 s)).
Proof. split; eexists; [split; [reflexivity|vm_compute; reflexivity]|]. split; [reflexivity|]. split; [reflexivity|]. vm_compute. auto 8. Qed.
Example C39_ex : let m := msteps (fun a b => list_eqb a b) [OButtons [Button [89] [121] [1]; Button [78] [110] [2]]; OShow; OMsg (MKey (plain KTab))] (new_modal [84] [104]) in
  foc m = 1 /\ visible m = true /\ update (fun a b => list_eqb a b) m (MKey (plain KEnter)) = (m, Some [2]) /\ update (fun a b => list_eqb a b) m (MKey (rune_key 121)) = (m, Some [1]) /\ position m = (20, 7) /\ md_ok m.
Proof. repeat split; try reflexivity. right. cbn. lia. Qed.
Example C85_ex : exists rows, render_box (mstep (fun _ _ => false) (new_modal [84] [104; 105]) OShow) = Some rows /\ length rows = 5%nat.
Proof. eexists. split; reflexivity. Qed.

(* ---------- C342 ---------- *)
(** The README's example: OK with the key "enter", Cancel with the key "esc". Esc presses neither, whatever counts as equal
    letters: it closes the modal, and the program hears nothing; Enter presses OK only while OK has the focus. *)
Theorem C342_readme_buttons_refuted : forall fold_eq title content,
  let ok := Button [79; 75] [101; 110; 116; 101; 114] [111; 107] in
  let cancel := Button [67; 97; 110; 99; 101; 108] [101; 115; 99] [99; 97; 110; 99; 101; 108] in
  let m := msteps fold_eq [OButtons [ok; cancel]; OShow] (new_modal title content) in
  let m1 := fst (update fold_eq m (MKey (plain KTab))) in
  visible m = true /\ update fold_eq m (MKey (plain KEsc)) = (set_visible m false, None) /\
  snd (update fold_eq m (MKey (plain KEnter))) = Some (baction ok) /\ snd (update fold_eq m1 (MKey (plain KEnter))) = Some (baction cancel).
Proof. intros. repeat split. Qed.
(** No button is ever pressed by Esc, Tab or the left and right arrows, and Enter presses none but the focused one (default
    bindings). *)
Theorem C342_taken_keys_refuted : forall fold_eq m, visible m = true -> kb m = default_bindings ->
  (forall k, In k [plain KEsc; plain KTab; Key KTab 0 false false true; plain KLeft; plain KRight; rune_key 8592; rune_key 8594] -> snd (update fold_eq m (MKey k)) = None) /\
  (forall b, focused_button m = Some b -> snd (update fold_eq m (MKey (plain KEnter))) = Some (baction b)).
Proof.
  intros fold_eq m V B. unfold update. rewrite V. cbn [negb]. unfold handle_key. rewrite B. split.
  - intros k I. cbn [In] in I. decompose [or] I; subst; try reflexivity. contradiction.
  - intros b F. cbn -[focused_button]. now rewrite F.
Qed.
(** Any other key does press its button, if no earlier button has the same one. *)
Theorem C342_free_keys_partial : forall fold_eq m k pre b suf, visible m = true -> kb m = default_bindings ->
  ~ In (key_string k) [s_esc; s_tab; s_shift_tab; s_enter; [8592]; [8594]] -> btns m = pre ++ b :: suf ->
  (forall b', In b' pre -> fold_eq (key_string k) (bkey b') = false) -> fold_eq (key_string k) (bkey b) = true ->
  update fold_eq m (MKey k) = (m, Some (baction b)).
Proof.
  intros fold_eq m k pre b suf V B N E Np F. unfold update. rewrite V. cbn [negb]. unfold handle_key. rewrite B.
  assert (M : forall l, (forall s, In s l -> In s [s_esc; s_tab; s_shift_tab; s_enter; [8592]; [8594]]) -> matches k l = false).
  { intros l L. destruct (matches k l) eqn:X; [|reflexivity]. apply matches_bound in X. exfalso. apply N, L, X. }
  cbn [default_bindings kclose knext kprev kact]. rewrite !M by (intros s I; cbn [In] in *; tauto).
  rewrite E. replace (find (fun b0 => fold_eq (key_string k) (bkey b0)) (pre ++ b :: suf)) with (Some b); [reflexivity|].
  clear E. induction pre as [|p pre IH]; cbn [app find]; [now rewrite F|]. rewrite (Np p (or_introl eq_refl)). apply IH. intros b' I. apply Np. now right.
Qed.
Example C342_free_ex : let y := Button [89; 101; 115] [121] [1] in let m := msteps (fun a b => list_eqb a b) [OButtons [y; Button [78; 111] [110] [2]]; OShow] (new_modal [] [63]) in
  visible m = true /\ kb m = default_bindings /\ ~ In (key_string (rune_key 110)) [s_esc; s_tab; s_shift_tab; s_enter; [8592]; [8594]] /\
  btns m = [y] ++ Button [78; 111] [110] [2] :: [] /\ list_eqb (key_string (rune_key 110)) (bkey y) = false.
Proof. cbv zeta. repeat split. cbn. intros I. decompose [or] I; try discriminate; contradiction. Qed.

Print Assumptions C39_centred. Print Assumptions C39_focus_on_existing_button. Print Assumptions C39_keys. Print Assumptions C39_tab_cycles.
Print Assumptions C39_hidden_ignores. Print Assumptions C39_bindings. Print Assumptions C39_messages_keep_the_rest. Print Assumptions C39_calls.
Print Assumptions C39_new. Print Assumptions C39_focused_action. Print Assumptions C84_resize_while_shown. Print Assumptions C181_resize_while_hidden_refuted.
Print Assumptions C85_rows_inside. Print Assumptions C85_dimmed_background. Print Assumptions C85_box. Print Assumptions C85_hidden.
Print Assumptions C182_last_row_missing_refuted. Print Assumptions C182_sides_missing_refuted. Print Assumptions C182_last_line_overwritten_refuted. Print Assumptions C182_narrow_panics_refuted.
Print Assumptions C183_bytes_not_cells_refuted. Print Assumptions C342_readme_buttons_refuted. Print Assumptions C342_taken_keys_refuted. Print Assumptions C342_free_keys_partial.
