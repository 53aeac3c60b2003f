From Verif Require Import Prelude Utf8 Text LyModel LyProofs.

(** The two axes of a container: along it items follow each other (x for a row, y for a column), across it they are aligned. *)
Definition along (f : flex) (p : Z * Z) : Z := if horizontal f then fst p else snd p.
Definition across (f : flex) (p : Z * Z) : Z := if horizontal f then snd p else fst p.
Definition width_ok (sw : list Z -> Z) : Prop := forall x, 0 <= sw x.

Section Flex.
Variable sw : list Z -> Z.
Lemma nth_combine {A B} (l : list A) : forall (m : list B) i, nth_error (combine l m) i = match nth_error l i, nth_error m i with Some a, Some b => Some (a, b) | _, _ => None end.
Proof using. induction l as [|a l IH]; intros [|b m] [|i]; cbn; auto; destruct (nth_error l i); auto. Qed.
Lemma map_fst_combine {A B} (l : list A) : forall (m : list B), length l = length m -> map fst (combine l m) = l.
Proof using. induction l as [|a l IH]; intros [|b m] H; cbn in *; try discriminate; auto. f_equal. apply IH. lia. Qed.
Definition mrem (f : flex) (w h : Z) : Z := Z.max 0 (along f (w, h) - sum (map (fun b => along f (measure sw b)) (items f)) - total_gap (fgap f) (length (items f))).
(** Every item's position, in one formula. *)
Lemma layout_nth f w h i b p : width_ok sw -> Forall (reach sw) (items f) -> 0 <= fgap f -> nth_error (flex_layout sw f w h) i = Some (b, p) ->
  nth_error (items f) i = Some b /\
  along f p = jstart (fjust f) (mrem f w h) + sum (firstn i (map (fun b => along f (measure sw b)) (items f))) + Z.of_nat i * jstep (fjust f) (fgap f) (mrem f w h) (length (items f)) /\
  across f p = cross_position (falign f) (across f (measure sw b)) (across f (w, h)).
Proof using.
  intros WO R G H. unfold flex_layout in H. rewrite nth_combine in H. destruct (nth_error (items f) i) as [b0|] eqn:E; [|discriminate].
  match type of H with match ?x with _ => _ end = _ => destruct x as [q|] eqn:E2 end; [|discriminate]. apply some_inj in H. injection H as -> ->. split; auto.
  rewrite nth_error_map in E2. rewrite nth_combine in E2. rewrite !nth_error_map in E2. rewrite E in E2. cbn [option_map] in E2.
  rewrite main_positions_eq in E2. rewrite !map_length in E2.
  assert (LI : (i < length (items f))%nat) by (apply nth_error_Some; congruence).
  rewrite place_nth in E2 by (rewrite !map_length; auto). cbn [option_map] in E2.
  assert (MM : map (if horizontal f then fst else snd) (map (measure sw) (items f)) = map (fun b => along f (measure sw b)) (items f)) by (rewrite map_map; apply map_ext; intros x; unfold along; destruct (horizontal f); reflexivity).
  rewrite MM in E2.
  assert (RM : Z.max 0 ((if horizontal f then w else h) - sum (map (fun b => along f (measure sw b)) (items f)) - total_gap (fgap f) (length (items f))) = mrem f w h) by (unfold mrem, along; destruct (horizontal f); reflexivity).
  rewrite RM in E2.
  assert (NN : Forall (fun x => 0 <= x) (map (fun b => along f (measure sw b)) (items f))).
  { rewrite Forall_forall in *. intros x X. apply in_map_iff in X as (y & <- & Y). destruct (measure_eq sw y WO (reach_wf sw y (R y Y))) as (_ & A & B & _). unfold along. destruct (horizontal f); auto. }
  assert (RP : 0 <= mrem f w h) by (unfold mrem; lia).
  set (m := jstart _ _ + _ + _) in *. assert (M0 : 0 <= m).
  { subst m. pose proof (sum_firstn_nonneg _ i NN). assert (0 <= jstart (fjust f) (mrem f w h)) by (destruct (fjust f); cbn; lia). assert (0 <= jstep (fjust f) (fgap f) (mrem f w h) (length (items f))).
    { destruct (fjust f); cbn [jstep]; auto. destruct (Nat.leb_spec (length (items f)) 1); auto. pose proof (Z.div_pos (mrem f w h) (Z.of_nat (length (items f)) - 1)). lia. } nia. }
  clearbody m. apply some_inj in E2. unfold cross_position in *. unfold along, across. destruct (horizontal f); subst p; cbn [fst snd]; (split; [lia|]; match goal with |- context [?x <? 0] => destruct (x <? 0) eqn:? end; lia).
Qed.
Lemma layout_boxes f w h : map fst (flex_layout sw f w h) = items f.
Proof using.
  unfold flex_layout. rewrite main_positions_eq.
  apply map_fst_combine. rewrite map_length, combine_length, place_length, !map_length. lia.
Qed.
Lemma along_nonneg f : width_ok sw -> Forall (reach sw) (items f) -> Forall (fun x => 0 <= x) (map (fun b => along f (measure sw b)) (items f)).
Proof using.
  intros WO R. rewrite Forall_forall in *. intros x X. apply in_map_iff in X as (y & <- & Y). destruct (measure_eq sw y WO (reach_wf sw y (R y Y))) as (_ & A & B & _). unfold along. destruct (horizontal f); auto.
Qed.
Lemma jstep_ge f w h : jstep (fjust f) (fgap f) (mrem f w h) (length (items f)) >= fgap f.
Proof using.
  assert (RP : 0 <= mrem f w h) by (unfold mrem; lia). destruct (fjust f); cbn [jstep]; try lia. destruct (Nat.leb_spec (length (items f)) 1); try lia. pose proof (Z.div_pos (mrem f w h) (Z.of_nat (length (items f)) - 1)). lia.
Qed.
End Flex.

(* ---------- C45 ---------- *)
(** Whatever the mode and the container, a laid-out container holds its items in their order, each starting at least the gap after
    the end of the one before, none before 0; and if the items with their gaps fit, none ends beyond the container. *)
Theorem C45_main_axis : forall sw f w h, width_ok sw -> Forall (reach sw) (items f) -> 0 <= fgap f ->
  let L := flex_layout sw f w h in let size b := along f (measure sw b) in
  map fst L = items f /\
  (forall i b1 p1 b2 p2, nth_error L i = Some (b1, p1) -> nth_error L (S i) = Some (b2, p2) -> along f p1 + size b1 + fgap f <= along f p2) /\
  (forall b p, In (b, p) L -> 0 <= along f p /\
    (sum (map size (items f)) + fgap f * (Z.of_nat (length (items f)) - 1) <= along f (w, h) -> along f p + size b <= along f (w, h))).
Proof.
  intros sw f w h WO R G L size. split; [apply layout_boxes|]. split.
  - intros i b1 p1 b2 p2 H1 H2. destruct (layout_nth sw f w h i b1 p1 WO R G H1) as (A1 & A2 & _). destruct (layout_nth sw f w h (S i) b2 p2 WO R G H2) as (B1 & B2 & _).
    rewrite A2, B2. rewrite (sum_firstn_S _ i (size b1)) by (rewrite nth_error_map, A1; reflexivity). pose proof (jstep_ge sw f w h). nia.
  - intros b p I. apply In_nth_error in I as [i I]. destruct (layout_nth sw f w h i b p WO R G I) as (A1 & A2 & _). pose proof (along_nonneg sw f WO R) as NN. fold size in NN. rewrite A2.
    fold size in A2 |- *. set (sizes := map size (items f)) in *. assert (SI : nth_error sizes i = Some (size b)) by (unfold sizes; rewrite nth_error_map, A1; reflexivity).
    pose proof (sum_firstn_nonneg _ i NN) as S0. pose proof (sum_firstn_le sizes (S i) NN) as S1. rewrite (sum_firstn_S _ i (size b) SI) in S1.
    assert (LI : (i < length (items f))%nat) by (apply nth_error_Some; congruence). set (n := length (items f)) in *.
    pose proof (jstep_ge sw f w h) as JG. fold n in JG. assert (RP : 0 <= mrem sw f w h) by (unfold mrem; lia). assert (J0 : 0 <= jstart (fjust f) (mrem sw f w h)) by (destruct (fjust f); cbn; lia).
    split; [nia|]. intros Fit. assert (TG : total_gap (fgap f) n = fgap f * (Z.of_nat n - 1)) by (unfold total_gap; destruct (Nat.leb_spec n 1); [assert (n = 1%nat) by lia; replace (Z.of_nat n - 1) with 0 by lia; lia|reflexivity]).
    assert (RE : mrem sw f w h = along f (w, h) - sum sizes - fgap f * (Z.of_nat n - 1)) by (unfold mrem; fold size sizes n; rewrite TG; lia).
    set (rm := mrem sw f w h) in *. clearbody rm. destruct (fjust f); cbn [jstart jstep] in *.
    + nia.
    + nia.
    + assert (rm / 2 <= rm) by lia. nia.
    + destruct (Nat.leb_spec n 1); [nia|]. assert (K : rm / (Z.of_nat n - 1) * (Z.of_nat n - 1) <= rm) by (rewrite Z.mul_comm; apply Z.mul_div_le; lia). assert (K0 : 0 <= rm / (Z.of_nat n - 1)) by (apply Z.div_pos; lia).
      assert (Z.of_nat i * (rm / (Z.of_nat n - 1)) <= rm) by nia. nia.
Qed.
(** The modes, when the items fit: the blank before the first and after the last item, and the blanks between. *)
Theorem C45_modes : forall sw f w h b0 p0 bn pn, width_ok sw -> Forall (reach sw) (items f) -> 0 <= fgap f ->
  let L := flex_layout sw f w h in let size b := along f (measure sw b) in let n := length (items f) in
  nth_error L 0 = Some (b0, p0) -> nth_error L (n - 1) = Some (bn, pn) ->
  sum (map size (items f)) + fgap f * (Z.of_nat n - 1) <= along f (w, h) ->
  let before := along f p0 in let after := along f (w, h) - (along f pn + size bn) in
  (fjust f = JStart -> before = 0) /\ (fjust f = JEnd -> after = 0) /\ (fjust f = JCenter -> before <= after <= before + 1) /\
  (fjust f = JBetween -> before = 0 /\ ((2 <= n)%nat -> 0 <= after < Z.of_nat n - 1)) /\
  exists between, (fjust f <> JBetween -> between = fgap f) /\ forall i b1 p1 b2 p2, nth_error L i = Some (b1, p1) -> nth_error L (S i) = Some (b2, p2) -> along f p2 - (along f p1 + size b1) = between.
Proof.
  intros sw f w h b0 p0 bn pn WO R G L size n H0 Hn Fit before after.
  destruct (layout_nth sw f w h 0 b0 p0 WO R G H0) as (A1 & A2 & _). destruct (layout_nth sw f w h (n - 1) bn pn WO R G Hn) as (B1 & B2 & _).
  pose proof (along_nonneg sw f WO R) as NN. fold size in NN, A2, B2. set (sizes := map size (items f)) in *.
  assert (LI : (0 < n)%nat) by (apply nth_error_Some; unfold n in *; congruence).
  assert (SN : sum (firstn (n - 1) sizes) + size bn = sum sizes).
  { rewrite <- (sum_firstn_S sizes (n - 1) (size bn)) by (unfold sizes; rewrite nth_error_map, B1; reflexivity). replace (S (n - 1)) with n by lia. unfold sizes, n. rewrite <- (map_length size (items f)). rewrite firstn_all. reflexivity. }
  assert (TG : total_gap (fgap f) n = fgap f * (Z.of_nat n - 1)) by (unfold total_gap; destruct (Nat.leb_spec n 1); [assert (n = 1%nat) by lia; replace (Z.of_nat n - 1) with 0 by lia; lia|reflexivity]).
  assert (RE : mrem sw f w h = along f (w, h) - sum sizes - fgap f * (Z.of_nat n - 1)) by (unfold mrem; fold size sizes n; rewrite TG; lia).
  fold n in A2, B2. cbn [firstn sum fold_right] in A2. unfold before, after. rewrite A2, B2. clear A2 B2. replace (Z.of_nat (n - 1)) with (Z.of_nat n - 1) by lia.
  set (rm := mrem sw f w h) in *. assert (RP : 0 <= rm) by lia.
  split; [intros ->; cbn; lia|]. split; [intros ->; cbn [jstart jstep]; lia|]. split; [intros ->; cbn [jstart jstep]; lia|]. split.
  - intros ->. cbn [jstart jstep]. split; [lia|]. intros N2. replace (n <=? 1)%nat with false by (symmetry; apply Nat.leb_gt; lia).
    pose proof (Z.mod_pos_bound rm (Z.of_nat n - 1) ltac:(lia)) as MB. pose proof (Z.div_mod rm (Z.of_nat n - 1) ltac:(lia)) as DM. nia.
  - exists (jstep (fjust f) (fgap f) rm n). split; [destruct (fjust f); cbn; congruence|]. intros i b1 p1 b2 p2 H1 H2. destruct (layout_nth sw f w h i b1 p1 WO R G H1) as (C1 & C2 & _). destruct (layout_nth sw f w h (S i) b2 p2 WO R G H2) as (D1 & D2 & _).
    rewrite C2, D2. rewrite (sum_firstn_S _ i (size b1)) by (rewrite nth_error_map, C1; reflexivity). unfold rm, n, size. lia.
Qed.
Definition alen (l : list Z) : Z := Z.of_nat (length l).
Definition tbox (c : list Z) : box := Box c (Sp 0 0 0 0) (Sp 0 0 0 0) false size_any HLeft VTop.
Lemma tbox_reach c : c <> [] -> reach alen (tbox c).
Proof. intros H. apply (reach_new alen c). destruct c; [congruence|reflexivity]. Qed.
Example C45_case : let f := Flex true JBetween AStart 1 [tbox [97; 98]; tbox [99]; tbox [100; 101; 102]] in
  map snd (flex_layout alen f 14 3) = [(0, 0); (6, 0); (11, 0)] /\ Forall (reach alen) (items f).
Proof. split; [reflexivity|]. repeat constructor; apply tbox_reach; discriminate. Qed.

(* ---------- C46 ---------- *)
(** An item that fits across the container lies inside it: at the near edge (start, stretch), at the far edge (end), or with blanks
    that differ by at most one (centre); one that does not fit starts at the near edge. *)
Theorem C46_cross_axis : forall sw f w h b p, width_ok sw -> Forall (reach sw) (items f) -> 0 <= fgap f -> In (b, p) (flex_layout sw f w h) ->
  let s := across f (measure sw b) in let c := across f (w, h) in let near := across f p in let far := c - (across f p + s) in
  0 <= near /\ (s <= c -> 0 <= far /\ (falign f = AStart \/ falign f = AStretch -> near = 0) /\ (falign f = AEnd -> far = 0) /\ (falign f = ACenter -> near <= far <= near + 1)) /\
  (c < s -> near = 0).
Proof.
  intros sw f w h b p WO R G I s c near far. apply In_nth_error in I as [i I]. destruct (layout_nth sw f w h i b p WO R G I) as (_ & _ & A). fold s c in A.
  assert (0 <= s). { unfold s. assert (In b (items f)) as Hb. { rewrite <- (layout_boxes sw f w h). apply in_map_iff. exists (b, p). split; auto. eapply nth_error_In; eauto. }
    rewrite Forall_forall in R. destruct (measure_eq sw b WO (reach_wf sw b (R b Hb))) as (_ & M1 & M2 & _). unfold across. destruct (horizontal f); auto. }
  unfold far, near. rewrite A. clearbody s c. unfold cross_position.
  assert (Q : (s <= c -> Z.quot (c - s) 2 = (c - s) / 2) /\ (c < s -> Z.quot (c - s) 2 <= 0)).
  { split; intros; [apply Z.quot_div_nonneg; lia|]. replace (c - s) with (- (s - c)) by lia. rewrite Z.quot_opp_l by lia. pose proof (Z.quot_pos (s - c) 2 ltac:(lia) ltac:(lia)). lia. }
  destruct Q as [Q1 Q2].
  split; [match goal with |- context [?x <? 0] => destruct (x <? 0) eqn:? end; lia|]. split.
  - intros F. specialize (Q1 F). destruct (falign f); try rewrite Q1; match goal with |- context [?x <? 0] => replace (x <? 0) with false by lia end; repeat split; intros; try discriminate; try lia; repeat match goal with H : _ \/ _ |- _ => destruct H; try discriminate end; lia.
  - intros F. specialize (Q2 F). destruct (falign f); try reflexivity; match goal with |- context [?x <? 0] => destruct (x <? 0) eqn:? end; lia.
Qed.
(** A box aligned within a parent of given size: same rules for both directions; the position is never negative. *)
Theorem C46_box_alignment : forall sw b pw ph, width_ok sw -> reach sw b -> 0 <= pw -> 0 <= ph ->
  let '(x, y) := box_layout sw b pw ph in let '(w, h) := measure sw b in
  (w <= pw -> let r := pw - (x + w) in 0 <= x /\ 0 <= r /\ (bhal b = HLeft -> x = 0) /\ (bhal b = HRight -> r = 0) /\ (bhal b = HCenter -> x <= r <= x + 1)) /\
  (h <= ph -> let r := ph - (y + h) in 0 <= y /\ 0 <= r /\ (bval b = VTop -> y = 0) /\ (bval b = VBottom -> r = 0) /\ (bval b = VMiddle -> y <= r <= y + 1)) /\
  (pw < w -> x = 0) /\ (ph < h -> y = 0).
Proof.
  intros sw b pw ph WO R P1 P2. unfold box_layout. destruct (measure_eq sw b WO (reach_wf sw b R)) as (_ & M1 & M2 & _). destruct (measure sw b) as [w h]. cbn [fst snd] in *.
  assert (neg1 pw = pw /\ neg1 ph = ph) as [-> ->] by (unfold neg1; destruct (pw <? 0) eqn:?, (ph <? 0) eqn:?; lia).
  assert (HX : forall (a : halign), let x := hoffset a w pw in 0 <= x /\ (w <= pw -> let r := pw - (x + w) in 0 <= r /\ (a = HLeft -> x = 0) /\ (a = HRight -> r = 0) /\ (a = HCenter -> x <= r <= x + 1)) /\ (pw < w -> x = 0)).
  { intros a. unfold hoffset. destruct (pw <=? w) eqn:E; [cbv zeta; repeat split; intros; lia|]. destruct a; cbv zeta; rewrite ?Z.quot_div_nonneg by lia; repeat split; intros; try discriminate; lia. }
  assert (HY : forall (a : valign), let x := voffset a h ph in 0 <= x /\ (h <= ph -> let r := ph - (x + h) in 0 <= r /\ (a = VTop -> x = 0) /\ (a = VBottom -> r = 0) /\ (a = VMiddle -> x <= r <= x + 1)) /\ (ph < h -> x = 0)).
  { intros a. unfold voffset. destruct (ph <=? h) eqn:E; [cbv zeta; repeat split; intros; lia|]. destruct a; cbv zeta; rewrite ?Z.quot_div_nonneg by lia; repeat split; intros; try discriminate; lia. }
  specialize (HX (bhal b)). specialize (HY (bval b)). cbv zeta in *. destruct HX as (X0 & X1 & X2). destruct HY as (Y0 & Y1 & Y2).
  replace (hoffset (bhal b) w pw <? 0) with false by lia. replace (voffset (bval b) h ph <? 0) with false by lia. tauto.
Qed.
Example C46_case : let f := Flex false JStart ACenter 0 [tbox [97; 98]] in flex_layout alen f 7 3 = [(tbox [97; 98], (2, 0))].
Proof. reflexivity. Qed.

(* ---------- C98: stretch ---------- *)
(** "Stretched items fill the cross axis" fails: the items of a laid-out container are the boxes that were added, and what is drawn
    for each is its own rendering, whatever the alignment and the container; *)
Theorem C98_stretch_changes_nothing_refuted : forall sw h j g its w ht, items (Flex h j AStretch g its) = map fst (flex_layout sw (Flex h j AStretch g its) w ht) /\
  flex_grid sw (Flex h j AStretch g its) w ht = flex_grid sw (Flex h j AStart g its) w ht.
Proof. intros. split; [symmetry; apply layout_boxes|reflexivity]. Qed.
(** so in a row of height 3 with a one-line and a three-line bordered item, the first is still one line tall. *)
Example C98_case : option_map (map (firstn 1)) (flex_grid alen (Flex true JStart AStretch 0 [tbox [97]; Box [98] (Sp 0 0 0 0) (Sp 0 0 0 0) true size_any HLeft VTop]) 8 3) = Some [[97]; [32]; [32]].
Proof. reflexivity. Qed.
(** What remains of stretching: the item is placed at the near edge. *)
Theorem C98_stretch_position_partial : forall sw f w h b p, width_ok sw -> Forall (reach sw) (items f) -> 0 <= fgap f -> falign f = AStretch -> In (b, p) (flex_layout sw f w h) -> across f p = 0.
Proof.
  intros sw f w h b p WO R G A I. destruct (C46_cross_axis sw f w h b p WO R G I) as (_ & H1 & H2). destruct (Z.le_gt_cases (across f (measure sw b)) (across f (w, h))) as [C|C]; [|apply H2; lia]. apply (H1 C). auto.
Qed.

(* ---------- C47 ---------- *)
(** Constraining: an exact size wins; else the result is the nearest value within the bounds that are set; sizes within bounds are
    unchanged; doing it twice changes nothing. Bounds with min > max are refused when set. *)
Theorem C47_constrain : forall s w h, swf s -> let '(w', h') := constrain s w h in
  (sw_ s <> -1 -> w' = sw_ s) /\ (sh_ s <> -1 -> h' = sh_ s) /\
  (sw_ s = -1 -> (minw s <> -1 -> minw s <= w') /\ (maxw s <> -1 -> w' <= maxw s) /\ ((minw s <> -1 -> minw s <= w) -> (maxw s <> -1 -> w <= maxw s) -> w' = w) /\ (w' < w -> w' = maxw s) /\ (w < w' -> w' = minw s)) /\
  (sh_ s = -1 -> (minh s <> -1 -> minh s <= h') /\ (maxh s <> -1 -> h' <= maxh s) /\ ((minh s <> -1 -> minh s <= h) -> (maxh s <> -1 -> h <= maxh s) -> h' = h) /\ (h' < h -> h' = maxh s) /\ (h < h' -> h' = minh s)) /\
  constrain s w' h' = (w', h').
Proof.
  intros s w h (A & B & C & D & E & F & G & H). unfold constrain.
  assert (K : forall e mn mx v, -1 <= mn -> -1 <= mx -> (mn <> -1 -> mx <> -1 -> mn <= mx) -> let v' := constrain1 e mn mx v in
    (e <> -1 -> v' = e) /\ (e = -1 -> (mn <> -1 -> mn <= v') /\ (mx <> -1 -> v' <= mx) /\ ((mn <> -1 -> mn <= v) -> (mx <> -1 -> v <= mx) -> v' = v) /\ (v' < v -> v' = mx) /\ (v < v' -> v' = mn)) /\ constrain1 e mn mx v' = v').
  { intros e mn mx v K1 K2 K3. unfold constrain1. destruct (e =? -1) eqn:E1; cbn [negb]; [|cbv zeta; split; [auto|split; [lia|auto]]].
    destruct (mn =? -1) eqn:E2, (mx =? -1) eqn:E3; cbn [negb andb]; repeat match goal with |- context [if ?b then _ else _] => destruct b eqn:? end; cbv zeta; split; try lia; split; intros; repeat split; intros; try lia; repeat match goal with H : ?a <> -1 -> _ |- _ => specialize (H ltac:(lia)) end; try lia; repeat match goal with H : context [if ?b then _ else _] |- _ => destruct b eqn:? end; lia. }
  destruct (K (sw_ s) (minw s) (maxw s) w C D G) as (W1 & W2 & W3). destruct (K (sh_ s) (minh s) (maxh s) h E F H) as (H1 & H2 & H3). split; auto. split; auto. split; auto. split; auto. rewrite W3, H3. reflexivity.
Qed.
(** Sizes are made with bounds that do not contradict each other, or not at all (Go panics); unset is -1. *)
Theorem C47_bounds_checked : forall w h a b c d,
  (new_size w h a b c d = None <-> (0 <= b < a) \/ (0 <= d < c)) /\ (forall s, new_size w h a b c d = Some s -> swf s) /\
  (forall s o s', swf s -> with_size_op s o = Some s' -> swf s').
Proof.
  intros w h a b c d. split; [|split; [intros s; apply new_size_wf|intros s o s' _ H; destruct o; eapply new_size_wf; eauto]].
  unfold new_size. assert (N : forall x y, negb (neg1 x =? -1) && negb (neg1 y =? -1) && (neg1 y <? neg1 x) = true <-> 0 <= y < x) by (intros x y; unfold neg1; destruct (x <? 0) eqn:?, (y <? 0) eqn:?; lia).
  pose proof (N a b) as N1. pose proof (N c d) as N2. destruct (_ && (neg1 b <? neg1 a)); [split; auto; intros; left; tauto|]. destruct (_ && (neg1 d <? neg1 c)); [split; auto; intros; right; tauto|].
  split; [discriminate|]. intros [H|H]; [apply N1 in H|apply N2 in H]; discriminate.
Qed.
Example C47_case : exists s, new_size (-1) (-1) 40 120 10 30 = Some s /\ constrain s 150 5 = (120, 10).
Proof. eexists. split; reflexivity. Qed.

(* ---------- measuring and rendering ---------- *)
(** Plain text: printable ASCII and newlines; a width table that gives it one column per character. *)
Definition printable (c : Z) : Prop := 32 <= c <= 126.
Definition plain (s : list Z) : Prop := Forall (fun c => c = 10 \/ printable c) s.
Definition ascii_width (sw : list Z -> Z) : Prop := forall l, Forall printable l -> sw l = Z.of_nat (length l).
Definition free (b : box) : Prop := sw_ (bsize b) = -1 /\ sh_ (bsize b) = -1 /\ maxw (bsize b) = -1 /\ maxh (bsize b) = -1 /\ minw (bsize b) = -1 /\ minh (bsize b) = -1.
Lemma plain_lines s : plain s -> Forall (Forall printable) (split_nl s).
Proof.
  intros P. pose proof (split_nl_lines s) as N. pose proof (split_nl_chars s _ P) as C. rewrite Forall_forall in *. intros l L. specialize (N l L). specialize (C l L). rewrite Forall_forall in *. intros c I. destruct (C c I); auto. subst. contradiction.
Qed.
Lemma blen_nonneg l : 0 <= blen l. Proof. unfold blen. lia. Qed.
Lemma plain_widths sw s : ascii_width sw -> plain s -> forall l, In l (split_nl s) -> sw l = Z.of_nat (length l) /\ blen l = Z.of_nat (length l).
Proof.
  intros A P l L. pose proof (plain_lines s P) as PL. rewrite Forall_forall in PL. specialize (PL l L). split; [apply A; auto|]. apply blen_ascii. eapply Forall_impl; [|exact PL]. unfold printable. cbn. lia.
Qed.
Lemma free_constrain b w h : free b -> constrain (bsize b) w h = (w, h).
Proof. intros (A & B & C & D & E & F). unfold constrain, constrain1. rewrite A, B, C, D, E, F. reflexivity. Qed.
(** Heights: how many lines are drawn. *)
Lemma render_count b : bwf b -> Z.of_nat (length (render_lines b)) = Z.of_nat (length (split_nl (content b))) + vert (padding b) + vert (margin b) + (if border b then 2 else 0).
Proof.
  intros (_ & (P1 & P2 & P3 & P4) & (M1 & M2 & M3 & M4) & _). unfold render_lines, vert. rewrite !app_length, !repeat_length, map_length. destruct (border b); cbn [length]; lia.
Qed.
Lemma render_no_nl b : Forall (fun l => ~ In 10 l) (render_lines b).
Proof.
  pose proof (split_nl_lines (content b)) as N. unfold render_lines.
  assert (RR : forall n, ~ In 10 (rep 32 n)) by (intros n; apply rep_no; discriminate). assert (RL : forall n, ~ In 10 (rep 9472 n)) by (intros n; apply rep_no; discriminate).
  assert (RP : forall (l : list Z) n, ~ In 10 l -> Forall (fun l => ~ In 10 l) (repeat l n)) by (intros l n H; apply Forall_forall; intros x X; apply repeat_spec in X; subst; auto).
  assert (AP : forall a c : list Z, ~ In 10 a -> ~ In 10 c -> ~ In 10 (a ++ c)) by (intros a c H1 H2 I; apply in_app_or in I; tauto).
  assert (BAR : ~ In 10 (if border b then [9474] else [])) by (destruct (border b); cbn; intuition lia).
  repeat (apply Forall_app; split); try (apply RP; repeat apply AP; auto); try (destruct (border b); constructor; [|constructor]; repeat apply AP; auto; cbn; intuition lia).
  apply Forall_forall. intros x X. apply in_map_iff in X as (cl & <- & CL). rewrite Forall_forall in N. specialize (N cl CL). repeat apply AP; auto. destruct (border b); auto.
Qed.
Lemma render_split b : bwf b -> split_nl (render b) = render_lines b.
Proof.
  intros W. apply split_join; [|apply render_no_nl]. intros E. pose proof (render_count b W) as C. rewrite E in C. cbn [length] in C. destruct W as (_ & P & M & _). unfold spwf, vert in *. pose proof (split_nl_ne (content b)). destruct (split_nl (content b)); [congruence|]. cbn [length] in C. destruct (border b); lia.
Qed.
Lemma rep_len c n : 0 <= n -> Z.of_nat (length (rep c n)) = n.
Proof. intros. rewrite rep_length. lia. Qed.
(** Widths of a bordered box of plain text. *)
Lemma bordered_widths b : bwf b -> plain (content b) -> border b = true -> Forall (fun l => Z.of_nat (length l) = max_of blen (split_nl (content b)) + horiz (padding b) + horiz (margin b) + 4) (render_lines b).
Proof.
  intros (_ & (P1 & P2 & P3 & P4) & (M1 & M2 & M3 & M4) & _) PL B. unfold render_lines. rewrite B. destruct (max_of_spec blen (split_nl (content b)) blen_nonneg) as (X1 & X2 & _). unfold content_width.
  set (cw := max_of blen (split_nl (content b))) in *.
  assert (RP : forall (l : list Z) n (Q : list Z -> Prop), Q l -> Forall Q (repeat l n)) by (intros l n Q H; apply Forall_forall; intros x X; apply repeat_spec in X; subst; auto).
  unfold horiz. cbv beta iota zeta.
  assert (LL : forall a c : list Z, Z.of_nat (length (a ++ c)) = Z.of_nat (length a) + Z.of_nat (length c)) by (intros a c; rewrite app_length; lia).
  assert (L1 : forall c : Z, Z.of_nat (length [c]) = 1) by reflexivity.
  repeat (apply Forall_app; split); try apply RP; try (apply Forall_cons; [|apply Forall_nil]).
  4: { apply Forall_forall. intros x X. apply in_map_iff in X as (cl & <- & CL). specialize (X2 cl CL).
       assert (blen cl = Z.of_nat (length cl)) by (apply blen_ascii; pose proof (plain_lines _ PL) as Q; rewrite Forall_forall in Q; specialize (Q cl CL); eapply Forall_impl; [|exact Q]; unfold printable; cbn; lia).
       rewrite !LL, !L1, !rep_len by lia. lia. }
  all: rewrite ?LL, ?L1, !rep_len by lia; lia.
Qed.
Lemma width_eq sw b : ascii_width sw -> plain (content b) -> max_of sw (split_nl (content b)) = max_of blen (split_nl (content b)).
Proof. intros A P. apply max_of_ext. intros l L. destruct (plain_widths sw _ A P l L) as [-> ->]. reflexivity. Qed.
(** The parts of a rendering: margin, top edge, padding, one line per line of content, and so on down. *)
Lemma content_line b i cl : spwf (padding b) -> spwf (margin b) -> nth_error (split_nl (content b)) i = Some cl ->
  nth_error (render_lines b) (Z.to_nat (top (margin b) + (if border b then 1 else 0) + top (padding b)) + i) =
  Some (rep 32 (left (margin b)) ++ (if border b then [9474] else []) ++ rep 32 (left (padding b) + (if border b then 1 else 0)) ++ cl ++
        (if border b then rep 32 (content_width (split_nl (content b)) - blen cl) ++ rep 32 (right (padding b) + 1) else rep 32 (right (padding b))) ++ (if border b then [9474] else []) ++ rep 32 (right (margin b))).
Proof.
  intros (P1 & _) (M1 & _) H. unfold render_lines.
  destruct (border b).
  - rewrite nth_error_app2 by (rewrite repeat_length; lia). rewrite repeat_length. rewrite nth_error_app2 by (cbn [length]; lia). cbn [length]. rewrite nth_error_app2 by (rewrite repeat_length; lia). rewrite repeat_length.
    match goal with |- nth_error _ ?k = _ => replace k with i by lia end. rewrite nth_error_app1 by (rewrite map_length; apply nth_error_Some; congruence). rewrite nth_error_map, H. reflexivity.
  - rewrite nth_error_app2 by (rewrite repeat_length; lia). rewrite repeat_length. rewrite app_nil_l. rewrite nth_error_app2 by (rewrite repeat_length; lia). rewrite repeat_length.
    match goal with |- nth_error _ ?k = _ => replace k with i by lia end. rewrite nth_error_app1 by (rewrite map_length; apply nth_error_Some; congruence). rewrite nth_error_map, H. cbn [option_map app]. rewrite !Z.add_0_r. reflexivity.
Qed.
Lemma open_widths b : bwf b -> plain (content b) -> border b = false ->
  let n := max_of blen (split_nl (content b)) + horiz (padding b) + horiz (margin b) in Forall (fun l => Z.of_nat (length l) <= n) (render_lines b) /\ exists l, In l (render_lines b) /\ Z.of_nat (length l) = n.
Proof.
  intros (_ & (P1 & P2 & P3 & P4) & (M1 & M2 & M3 & M4) & _) PL B n. destruct (max_of_spec blen (split_nl (content b)) blen_nonneg) as (X1 & X2 & X3).
  assert (LL : forall a c : list Z, Z.of_nat (length (a ++ c)) = Z.of_nat (length a) + Z.of_nat (length c)) by (intros a c; rewrite app_length; lia).
  assert (BL : forall cl, In cl (split_nl (content b)) -> blen cl = Z.of_nat (length cl)) by (intros cl CL; apply blen_ascii; pose proof (plain_lines _ PL) as Q; rewrite Forall_forall in Q; specialize (Q cl CL); eapply Forall_impl; [|exact Q]; unfold printable; cbn; lia).
  assert (RP : forall (l : list Z) n (Q : list Z -> Prop), Q l -> Forall Q (repeat l n)) by (intros l m Q H; apply Forall_forall; intros x X; apply repeat_spec in X; subst; auto).
  split.
  - unfold render_lines. rewrite B. unfold content_width. unfold n, horiz. set (cw := max_of blen (split_nl (content b))) in *. cbv beta iota zeta.
    repeat (apply Forall_app; split); try apply RP; try apply Forall_nil.
    3: { apply Forall_forall. intros x X. apply in_map_iff in X as (cl & <- & CL). specialize (X2 cl CL). specialize (BL cl CL). rewrite !LL, !rep_len by lia. cbn [length]. lia. }
    all: rewrite ?LL, !rep_len by lia; cbn [length]; lia.
  - destruct (X3 (split_nl_ne _)) as (cl & C1 & C2). destruct (In_nth_error _ _ C1) as [i I]. pose proof (content_line b i cl ltac:(repeat split; auto) ltac:(repeat split; auto) I) as K. rewrite B in K.
    match type of K with _ = Some ?l => exists l end. split; [eapply nth_error_In; exact K|]. cbn [app]. rewrite !LL, !rep_len by lia. specialize (BL cl C1). unfold n, horiz. lia.
Qed.

(* ---------- C48: what is measured and what is rendered ---------- *)
(** The box takes up in layouts exactly what it renders: true of the width, always, and of the height without a border; *)
Theorem C48_measured_is_rendered : forall sw b, width_ok sw -> ascii_width sw -> reach sw b -> plain (content b) -> free b ->
  let ls := split_nl (render b) in let '(w, h) := measure sw b in
  Forall (fun l => Z.of_nat (length l) <= w) ls /\ (exists l, In l ls /\ Z.of_nat (length l) = w) /\ (border b = false -> h = Z.of_nat (length ls)).
Proof.
  intros sw b WO A R P F ls. pose proof (reach_wf sw b R) as W. destruct (measure_eq sw b WO W) as (E & _). rewrite (free_constrain b _ _ F) in E. unfold natural in E. cbn [fst snd] in E. rewrite E.
  unfold ls. rewrite (render_split b W). rewrite (width_eq sw b A P). pose proof (render_count b W) as C. destruct (border b) eqn:B.
  - pose proof (bordered_widths b W P B) as BW. split; [eapply Forall_impl; [|exact BW]; cbn; lia|]. split; [|discriminate]. destruct (render_lines b) as [|l t] eqn:E2; [pose proof (split_nl_ne (content b)); destruct (split_nl (content b)); [congruence|]; destruct W as (_ & Q1 & Q2 & _); unfold spwf, vert in *; cbn [length] in C; lia|].
    exists l. split; [left; auto|]. inversion_clear BW. lia.
  - destruct (open_widths b W P B) as (O1 & l & O2 & O3). split; [eapply Forall_impl; [|exact O1]; cbn; lia|]. split; [exists l; split; auto; lia|]. intros _. lia.
Qed.
(** with a border every box of plain text is measured two lines taller than it renders. *)
Theorem C162_bordered_height_refuted : forall sw b, width_ok sw -> reach sw b -> free b -> border b = true -> snd (measure sw b) = Z.of_nat (length (split_nl (render b))) + 2.
Proof.
  intros sw b WO R F B. pose proof (reach_wf sw b R) as W. destruct (measure_eq sw b WO W) as (E & _). rewrite (free_constrain b _ _ F) in E. rewrite E. unfold natural. cbn [fst snd]. rewrite (render_split b W). pose proof (render_count b W) as C. rewrite B in *. lia.
Qed.
Example C48_case : let b := Box [97; 98; 10; 99] (Sp 0 1 0 1) (Sp 1 0 0 0) true size_any HLeft VTop in
  measure alen b = (8, 7) /\ map (fun l => length l) (split_nl (render b)) = [8; 8; 8; 8; 8]%nat /\ reach alen b /\ free b /\ plain (content b).
Proof.
  split; [reflexivity|]. split; [reflexivity|]. split; [|split; [repeat split|repeat constructor; unfold printable; lia]].
  apply (reach_step alen (Box [97; 98; 10; 99] (Sp 0 1 0 1) (Sp 0 0 0 0) true size_any HLeft VTop) (BMargin 1 0 0 0)); [|reflexivity].
  apply (reach_step alen (Box [97; 98; 10; 99] (Sp 0 1 0 1) (Sp 0 0 0 0) false size_any HLeft VTop) (BBorder true)); [|reflexivity].
  apply (reach_step alen (tbox [97; 98; 10; 99]) (BPadding 0 1 0 1)); [|reflexivity]. apply tbox_reach. discriminate.
Qed.

(* ---------- C99: the frame ---------- *)
(** A bordered box of plain text renders as a rectangle; each line of the content is there, unchanged and in order, between two bars;
    right above and below are the two edges. *)
Theorem C99_frame : forall sw b, reach sw b -> plain (content b) -> border b = true ->
  let ls := split_nl (render b) in let cls := split_nl (content b) in let sp n := repeat 32 (Z.to_nat n) in
  exists w, Forall (fun l => length l = w) ls /\
  (forall i cl, nth_error cls i = Some cl -> exists fill, 0 <= fill /\
     nth_error ls (Z.to_nat (top (margin b) + 1 + top (padding b)) + i) = Some (sp (left (margin b)) ++ [9474] ++ sp (left (padding b) + 1) ++ cl ++ sp fill ++ sp (right (padding b) + 1) ++ [9474] ++ sp (right (margin b)))) /\
  (exists inner, nth_error ls (Z.to_nat (top (margin b))) = Some (sp (left (margin b)) ++ [9484] ++ repeat 9472 inner ++ [9488] ++ sp (right (margin b))) /\
     nth_error ls (Z.to_nat (top (margin b) + 1 + vert (padding b)) + length cls) = Some (sp (left (margin b)) ++ [9492] ++ repeat 9472 inner ++ [9496] ++ sp (right (margin b)))) /\
  Z.of_nat (length ls) = Z.of_nat (length cls) + vert (padding b) + vert (margin b) + 2.
Proof.
  intros sw b R P B ls cls sp. pose proof (reach_wf sw b R) as W. unfold ls. rewrite (render_split b W). pose proof W as (_ & W2 & W3 & _).
  exists (Z.to_nat (max_of blen (split_nl (content b)) + horiz (padding b) + horiz (margin b) + 4)). split.
  { eapply Forall_impl; [|apply (bordered_widths b W P B)]. cbn. intros a H. lia. }
  split; [|split].
  - intros i cl H. exists (content_width cls - blen cl). destruct (max_of_spec blen cls blen_nonneg) as (_ & X & _). specialize (X cl (nth_error_In _ _ H)). split; [unfold content_width; lia|].
    pose proof (content_line b i cl W2 W3 H) as K. rewrite B in K. rewrite K. unfold sp, rep, cls. rewrite <- !app_assoc. reflexivity.
  - exists (Z.to_nat (content_width cls + (left (padding b) + 1) + (right (padding b) + 1))). unfold render_lines. rewrite B. cbv beta iota zeta. fold cls. destruct W2 as (A1 & A2 & A3 & A4), W3 as (C1 & C2 & C3 & C4). split.
    + rewrite nth_error_app2 by (rewrite repeat_length; lia). rewrite repeat_length, Nat.sub_diag. reflexivity.
    + unfold vert. rewrite nth_error_app2 by (rewrite repeat_length; lia). rewrite repeat_length. rewrite nth_error_app2 by (cbn [length]; lia). cbn [length]. rewrite nth_error_app2 by (rewrite repeat_length; lia). rewrite repeat_length.
      rewrite nth_error_app2 by (rewrite map_length; lia). rewrite map_length. rewrite nth_error_app2 by (rewrite repeat_length; lia). rewrite repeat_length.
      match goal with |- nth_error _ ?k = _ => replace k with 0%nat by lia end. reflexivity.
  - pose proof (render_count b W) as C. rewrite B in C. exact C.
Qed.
Example C99_case : render (Box [97; 98; 10; 99] (Sp 0 0 0 0) (Sp 0 0 0 0) true size_any HLeft VTop) =
  join_nl [[9484; 9472; 9472; 9472; 9472; 9488]; [9474; 32; 97; 98; 32; 9474]; [9474; 32; 99; 32; 32; 9474]; [9492; 9472; 9472; 9472; 9472; 9496]].
Proof. reflexivity. Qed.

(* ---------- C100: text beyond ASCII ---------- *)
(** For any text, a line of content with its bars falls short of the frame by the number of UTF-8 continuation bytes in it, so the
    frame is broken as soon as a line holds one character beyond ASCII. *)
Theorem C100_frame_of_any_text_refuted : forall sw b i cl l edge, reach sw b -> border b = true ->
  nth_error (split_nl (content b)) i = Some cl -> nth_error (split_nl (render b)) (Z.to_nat (top (margin b) + 1 + top (padding b)) + i) = Some l -> nth_error (split_nl (render b)) (Z.to_nat (top (margin b))) = Some edge ->
  Z.of_nat (length l) = Z.of_nat (length edge) - (Z.of_nat (length (enc cl)) - Z.of_nat (length cl)).
Proof.
  intros sw b i cl l edge R B H H1 H2. pose proof (reach_wf sw b R) as W. rewrite (render_split b W) in *. pose proof W as (_ & W2 & W3 & _).
  pose proof (content_line b i cl W2 W3 H) as K. rewrite B in K. rewrite K in H1. apply some_inj in H1. subst l.
  unfold render_lines in H2. rewrite B in H2. cbv beta iota zeta in H2. rewrite nth_error_app2 in H2 by (rewrite repeat_length; lia). rewrite repeat_length, Nat.sub_diag in H2. cbn [app nth_error] in H2. apply some_inj in H2. subst edge.
  destruct (max_of_spec blen (split_nl (content b)) blen_nonneg) as (X0 & X & _). specialize (X cl (nth_error_In _ _ H)). unfold content_width. destruct W2 as (A1 & A2 & A3 & A4), W3 as (C1 & C2 & C3 & C4).
  assert (LL : forall a c : list Z, Z.of_nat (length (a ++ c)) = Z.of_nat (length a) + Z.of_nat (length c)) by (intros a c; rewrite app_length; lia).
  assert (LC : forall x (l : list Z), Z.of_nat (length (x :: l)) = 1 + Z.of_nat (length l)) by (intros; cbn [length]; lia).
  unfold blen in *. rewrite ?LL, ?LC, ?LL, ?LC, ?LL, ?LC, !rep_len by lia. cbn [length]. lia.
Qed.
Example C100_case : map (fun l => length l) (split_nl (render (Box [233; 10; 97; 98] (Sp 0 0 0 0) (Sp 0 0 0 0) true size_any HLeft VTop))) = [6; 5; 6; 6]%nat.
Proof. reflexivity. Qed.
(** The claim holds of the lines made of ASCII characters, in a box with any other lines. *)
Theorem C295_ascii_line : forall sw b i cl l edge, reach sw b -> border b = true -> Forall (fun c => 0 <= c < 128) cl ->
  nth_error (split_nl (content b)) i = Some cl -> nth_error (split_nl (render b)) (Z.to_nat (top (margin b) + 1 + top (padding b)) + i) = Some l -> nth_error (split_nl (render b)) (Z.to_nat (top (margin b))) = Some edge ->
  length l = length edge.
Proof.
  intros sw b i cl l edge R B A H H1 H2. pose proof (C100_frame_of_any_text_refuted sw b i cl l edge R B H H1 H2). rewrite enc_len_ascii in * by auto. lia.
Qed.

(* ---------- C101: the size a box is given ---------- *)
(** Width, Height and their bounds have no influence on what a box renders: not even the output's number of lines. *)
Theorem C101_size_ignored_refuted : forall sw b o b', bstep b (BSize o) = Some b' -> snd (box_render sw b') = snd (box_render sw b).
Proof.
  intros sw b o b' H. cbn [bstep] in H. destruct (with_size_op (bsize b) o); [|discriminate]. apply some_inj in H. subst b'. unfold box_render.
  destruct (measure sw b) as [w h]. match goal with |- context [measure sw ?x] => destruct (measure sw x) as [w2 h2] end. reflexivity.
Qed.
(** Measuring and placing do follow it: a box of set width measures exactly that. *)
Theorem C266_measured_size : forall sw b b' v, width_ok sw -> reach sw b -> 0 <= v ->
  (bstep b (BSize (SWidth v)) = Some b' -> fst (measure sw b') = v) /\ (bstep b (BSize (SHeight v)) = Some b' -> snd (measure sw b') = v) /\
  (bstep b (BSize (SMinW v)) = Some b' -> sw_ (bsize b) = -1 -> v <= fst (measure sw b')) /\ (bstep b (BSize (SMaxW v)) = Some b' -> sw_ (bsize b) = -1 -> fst (measure sw b') <= v) /\
  (bstep b (BSize (SMinH v)) = Some b' -> sh_ (bsize b) = -1 -> v <= snd (measure sw b')) /\ (bstep b (BSize (SMaxH v)) = Some b' -> sh_ (bsize b) = -1 -> snd (measure sw b') <= v).
Proof.
  intros sw b b' v WO R V. assert (NV : neg1 v = v) by (unfold neg1; destruct (v <? 0) eqn:?; lia).
  assert (K : forall o, bstep b (BSize o) = Some b' -> exists s, with_size_op (bsize b) o = Some s /\ swf s /\ bsize b' = s /\ exists w h, measure sw b' = constrain s w h).
  { intros o H. assert (RB : reach sw b') by (eapply reach_step; eauto). cbn [bstep] in H. destruct (with_size_op (bsize b) o) as [s|] eqn:E; [|discriminate]. apply some_inj in H. exists s. split; auto. destruct (measure_eq sw b' WO (reach_wf _ _ RB)) as (M & _). pose proof (reach_wf _ _ RB) as (S & _).
    subst b'. cbn [bsize] in *. split; auto. split; auto. eexists _, _. exact M. }
  pose proof (reach_wf _ _ R) as ((Z1 & Z2 & _) & _).
  assert (NS : forall a b c d e f s, new_size a b c d e f = Some s -> s = Size (neg1 a) (neg1 b) (neg1 c) (neg1 d) (neg1 e) (neg1 f)) by (intros a0 b0 c d e f s H; unfold new_size in H; destruct (_ && _) in H; [discriminate|]; destruct (_ && _) in H; [discriminate|]; apply some_inj in H; auto).
  assert (NM : neg1 (-1) = -1) by reflexivity.
  repeat split; intros H; destruct (K _ H) as (s & E & SW & _ & w & h & M); rewrite M; pose proof (C47_constrain s w h SW) as C; destruct (constrain s w h) as [w' h']; cbn [fst snd]; destruct C as (C1 & C2 & C3 & C4 & _); cbn [with_size_op] in E; apply NS in E; subst s; cbn [sw_ sh_ minw maxw minh maxh] in *; rewrite ?NV in *.
  - apply C1. lia.
  - apply C2. lia.
  - intros Q. rewrite Q in C3. specialize (C3 NM). apply C3. lia.
  - intros Q. rewrite Q in C3. specialize (C3 NM). apply C3. lia.
  - intros Q. rewrite Q in C4. specialize (C4 NM). apply C4. lia.
  - intros Q. rewrite Q in C4. specialize (C4 NM). apply C4. lia.
Qed.
Example C101_case : exists b', bstep (tbox [97; 98]) (BSize (SWidth 20)) = Some b' /\ measure alen b' = (20, 1) /\ snd (box_render alen b') = [97; 98].
Proof. eexists. repeat split; reflexivity. Qed.

(* ---------- C102: the picture of a container ---------- *)
Lemma layout_order sw f w h i j b1 p1 b2 p2 : width_ok sw -> Forall (reach sw) (items f) -> 0 <= fgap f -> (i < j)%nat ->
  nth_error (flex_layout sw f w h) i = Some (b1, p1) -> nth_error (flex_layout sw f w h) j = Some (b2, p2) -> along f p1 + along f (measure sw b1) <= along f p2.
Proof.
  intros WO R G IJ H1 H2. destruct (layout_nth sw f w h i b1 p1 WO R G H1) as (A1 & A2 & _). destruct (layout_nth sw f w h j b2 p2 WO R G H2) as (B1 & B2 & _). rewrite A2, B2.
  pose proof (along_nonneg sw f WO R) as NN. set (sizes := map (fun b => along f (measure sw b)) (items f)) in *. pose proof (jstep_ge sw f w h) as JG.
  assert (sum (firstn (S i) sizes) <= sum (firstn j sizes)).
  { replace (firstn (S i) sizes) with (firstn (S i) (firstn j sizes)) by (rewrite firstn_firstn; f_equal; lia). apply sum_firstn_le. rewrite Forall_forall in *. intros x X. apply NN. rewrite <- (firstn_skipn j sizes). apply in_or_app. auto. }
  rewrite (sum_firstn_S _ i (along f (measure sw b1))) in H by (unfold sizes; rewrite nth_error_map, A1; reflexivity). nia.
Qed.
Lemma layout_pos sw f w h i b x y : width_ok sw -> Forall (reach sw) (items f) -> 0 <= fgap f -> nth_error (flex_layout sw f w h) i = Some (b, (x, y)) -> 0 <= x /\ 0 <= y /\ In b (items f).
Proof.
  intros WO R G H. assert (In b (items f)) by (rewrite <- (layout_boxes sw f w h); apply in_map_iff; exists (b, (x, y)); split; auto; eapply nth_error_In; eauto).
  destruct (C45_main_axis sw f w h WO R G) as (_ & _ & M). destruct (M b (x, y) (nth_error_In _ _ H)) as [M1 _]. destruct (C46_cross_axis sw f w h b (x, y) WO R G (nth_error_In _ _ H)) as (X1 & _). unfold along, across in *. destruct (horizontal f); cbn [fst snd] in *; auto.
Qed.
(** The picture has exactly the size asked for; every item of plain text (no size of its own) is in it, whole as far as it lies inside, at
    the place the layout gives it, and nothing else is drawn. *)
Theorem C102_picture : forall sw f w h g, width_ok sw -> ascii_width sw -> Forall (fun b => reach sw b /\ plain (content b) /\ free b) (items f) -> 0 <= fgap f -> flex_grid sw f w h = Some g ->
  let at_ r c := match nth_error g r with Some row => nth_error row c | None => None end in
  Z.of_nat (length g) = h /\ Forall (fun row => Z.of_nat (length row) = w) g /\
  (forall b x y k line j ch, In (b, (x, y)) (flex_layout sw f w h) -> nth_error (split_nl (render b)) k = Some line -> nth_error line j = Some ch ->
     y + Z.of_nat k < h -> x + Z.of_nat j < w -> at_ (Z.to_nat y + k)%nat (Z.to_nat x + j)%nat = Some ch) /\
  (forall r c, (r < length g)%nat -> Z.of_nat c < w ->
     (forall b x y line k j, In (b, (x, y)) (flex_layout sw f w h) -> nth_error (split_nl (render b)) k = Some line -> (j < length line)%nat -> ~ (r = Z.to_nat y + k /\ c = Z.to_nat x + j)%nat) -> at_ r c = Some 32).
Proof.
  intros sw f w h g WO A F G H at_. assert (R : Forall (reach sw) (items f)) by (eapply Forall_impl; [|exact F]; cbn; tauto).
  unfold flex_grid in H. destruct (_ || _) eqn:NEG; [discriminate|]. apply some_inj in H.
  set (L := map (fun '(b, (x, y)) => (split_nl (render b), (Z.to_nat x, Z.to_nat y))) (flex_layout sw f w h)).
  assert (E : fold_left (fun g '(ls, (x, y)) => paint_lines g y x (Z.to_nat w) ls) L (repeat (rep 32 w) (Z.to_nat h)) = g).
  { rewrite <- H. unfold L. rewrite fold_left_map. match goal with |- fold_left ?F1 _ ?a0 = fold_left ?F2 _ _ => generalize a0; assert (EXT : forall a c, F1 a c = F2 a c) by (intros a [b [x y]]; reflexivity); revert EXT; generalize F1, F2 end.
    clear L H. intros F1 F2 EXT. induction (flex_layout sw f w h) as [|q t IH]; intros a; cbn [fold_left]; auto. rewrite EXT. apply IH. }
  assert (G0 : gwf (repeat (rep 32 w) (Z.to_nat h)) (Z.to_nat h) (Z.to_nat w)).
  { split; [apply repeat_length|]. apply Forall_forall. intros x X. apply repeat_spec in X. subst. apply rep_length. }
  pose proof (paint_fold L (Z.to_nat h) (Z.to_nat w) _ G0) as PF. cbv zeta in PF. rewrite E in PF. destruct PF as [[P1 P2] P3].
  split; [lia|]. split.
  { destruct (Z.eq_dec h 0); [destruct g; [constructor|cbn in P1; lia]|]. eapply Forall_impl; [|exact P2]. cbn. intros. lia. }
  assert (C0 : forall r c, (r < Z.to_nat h)%nat -> (c < Z.to_nat w)%nat -> cell (repeat (rep 32 w) (Z.to_nat h)) r c = Some 32).
  { intros r c Hr Hc. unfold cell. rewrite nth_error_repeat by auto. unfold rep. apply nth_error_repeat. auto. }
  assert (FIT : forall b, In b (items f) -> forall k line, nth_error (split_nl (render b)) k = Some line -> Z.of_nat k < snd (measure sw b) /\ Z.of_nat (length line) <= fst (measure sw b)).
  { intros b Hb k line Hk. rewrite Forall_forall in F. destruct (F b Hb) as (F1 & F2 & F3). pose proof (C48_measured_is_rendered sw b WO A F1 F2 F3) as M1. pose proof (C162_bordered_height_refuted sw b WO F1 F3) as M2.
    assert (KL : (k < length (split_nl (render b)))%nat) by (apply nth_error_Some; congruence). cbv zeta in M1. destruct (measure sw b) as [mw mh]. cbn [fst snd] in *. destruct M1 as (M3 & _ & M4). split.
    - destruct (border b); [specialize (M2 eq_refl); lia|specialize (M4 eq_refl); lia].
    - rewrite Forall_forall in M3. apply M3. eapply nth_error_In; eauto. }
  split.
  - intros b x y k line j ch I Hk Hj Y X. destruct (In_nth_error _ _ I) as [i Hi]. destruct (layout_pos sw f w h i b x y WO R G Hi) as (X0 & Y0 & Hb). destruct (FIT b Hb k line Hk) as [FT1 FT2]. assert (JL : (j < length line)%nat) by (apply nth_error_Some; congruence).
    destruct (P3 (Z.to_nat y + k)%nat (Z.to_nat x + j)%nat ltac:(lia) ltac:(lia)) as [_ P4]. change (cell g (Z.to_nat y + k)%nat (Z.to_nat x + j)%nat = Some ch).
    apply (P4 i (split_nl (render b)) (Z.to_nat x) (Z.to_nat y) ch).
    + unfold L. rewrite nth_error_map, Hi. reflexivity.
    + unfold draw. replace (_ <=? _)%nat with true by (symmetry; apply Nat.leb_le; lia). replace (_ <=? _)%nat with true by (symmetry; apply Nat.leb_le; lia). cbn [andb].
      rewrite nth_error_nth_nil. replace (Z.to_nat y + k - Z.to_nat y)%nat with k by lia. rewrite Hk. replace (Z.to_nat x + j - Z.to_nat x)%nat with j by lia. exact Hj.
    + intros i2 ls2 x2 y2 LT H2. unfold L in H2. rewrite nth_error_map in H2. destruct (nth_error (flex_layout sw f w h) i2) as [[b2 [x2' y2']]|] eqn:Hi2; [|discriminate]. apply some_inj in H2. injection H2 as <- <- <-.
      pose proof (layout_order sw f w h i i2 _ _ _ _ WO R G LT Hi Hi2) as O. destruct (layout_pos sw f w h i2 b2 x2' y2' WO R G Hi2) as (X2 & Y2 & _). unfold along in O. unfold draw.
      destruct (Nat.leb_spec (Z.to_nat y2') (Z.to_nat y + k)); cbn [andb]; auto. destruct (Nat.leb_spec (Z.to_nat x2') (Z.to_nat x + j)); auto. exfalso. destruct (horizontal f); cbn [fst snd] in O; lia.
  - intros r c Hr Hc N. destruct (P3 r c ltac:(lia) ltac:(lia)) as [P4 _]. change (cell g r c = Some 32). rewrite P4; [apply C0; lia|].
    intros ls x y I. unfold L in I. apply in_map_iff in I as ([b [x' y']] & Q & I). injection Q as <- <- <-. unfold draw. destruct (Nat.leb_spec (Z.to_nat y') r); cbn [andb]; auto. destruct (Nat.leb_spec (Z.to_nat x') c); auto.
    rewrite nth_error_nth_nil. destruct (nth_error (split_nl (render b)) (r - Z.to_nat y')) as [line|] eqn:EL; auto. apply nth_error_None. destruct (Nat.le_gt_cases (length line) (c - Z.to_nat x')); auto. exfalso. apply (N b x' y' line (r - Z.to_nat y')%nat (c - Z.to_nat x')%nat I EL); lia.
Qed.
(** A container is always drawn, for every size a terminal can have. *)
Theorem C102_no_panic : forall sw f w h, 0 <= w -> 0 <= h -> exists g, flex_grid sw f w h = Some g.
Proof. intros sw f w h W H. unfold flex_grid. replace ((h <? 0) || ((0 <? h) && (w <? 0))) with false by lia. eexists. reflexivity. Qed.
Example C102_case : flex_grid alen (Flex true JStart AStart 1 [tbox [97; 98; 10; 99]; tbox [100]]) 6 2 = Some [[97; 98; 32; 100; 32; 32]; [99; 32; 32; 32; 32; 32]].
Proof. reflexivity. Qed.

(* ---------- C103: rendering leaves the box as it was ---------- *)
(** Rendering freezes the box's size: a longer padding set afterwards no longer changes how much room a layout gives the box. *)
Theorem C103_render_changes_nothing_refuted : forall sw b t r m l, width_ok sw -> reach sw b ->
  let b1 := fst (box_render sw b) in forall b2, bstep b1 (BPadding t r m l) = Some b2 -> measure sw b2 = measure sw b.
Proof.
  intros sw b t r m l WO R b1 b2 H. destruct (measure_eq sw b WO (reach_wf sw b R)) as (_ & M1 & M2 & _). assert (RB : reach sw b2) by (eapply reach_step; [apply reach_render; exact R|exact H]).
  destruct (measure_eq sw b2 WO (reach_wf sw b2 RB)) as (E & _). rewrite E. unfold b1, box_render in H. destruct (measure sw b) as [w h]. cbn [fst snd] in *. cbn [bstep] in H. apply some_inj in H. subst b2. cbn [bsize set_size]. unfold constrain, constrain1. cbn [size_exact sw_ sh_].
  assert (neg1 w = w /\ neg1 h = h) as [-> ->] by (unfold neg1; destruct (w <? 0) eqn:?, (h <? 0) eqn:?; lia). replace (w =? -1) with false by lia. replace (h =? -1) with false by lia. reflexivity.
Qed.
Example C103_case : exists b2 b3, bstep (fst (box_render alen (tbox [97]))) (BPadding 1 1 1 1) = Some b2 /\ bstep (tbox [97]) (BPadding 1 1 1 1) = Some b3 /\ measure alen b2 = (1, 1) /\ measure alen b3 = (3, 3) /\ length (split_nl (render b2)) = 3%nat.
Proof. eexists _, _. repeat split; reflexivity. Qed.
(** What is not disturbed: the next rendering, the size and the position of the box itself. *)
Theorem C267_render_again : forall sw b pw ph, width_ok sw -> reach sw b ->
  let b1 := fst (box_render sw b) in snd (box_render sw b1) = snd (box_render sw b) /\ measure sw b1 = measure sw b /\ box_layout sw b1 pw ph = box_layout sw b pw ph /\ box_render sw b1 = (b1, snd (box_render sw b)).
Proof.
  intros sw b pw ph WO R b1. assert (RB : reach sw b1) by (apply reach_render; exact R). destruct (measure_eq sw b WO (reach_wf sw b R)) as (_ & M1 & M2 & _). destruct (measure_eq sw b1 WO (reach_wf sw b1 RB)) as (E & _).
  assert (Q : measure sw b1 = measure sw b).
  { rewrite E. unfold b1, box_render. destruct (measure sw b) as [w h]. cbn [fst snd] in *. cbn [bsize set_size]. unfold constrain, constrain1. cbn [size_exact sw_ sh_].
    assert (neg1 w = w /\ neg1 h = h) as [-> ->] by (unfold neg1; destruct (w <? 0) eqn:?, (h <? 0) eqn:?; lia). replace (w =? -1) with false by lia. replace (h =? -1) with false by lia. reflexivity. }
  assert (S1 : set_size b1 (size_exact (fst (measure sw b)) (snd (measure sw b))) = b1) by (unfold b1, box_render; destruct (measure sw b); reflexivity).
  assert (S2 : box_render sw b1 = (b1, snd (box_render sw b))).
  { unfold box_render at 1. rewrite Q. destruct (measure sw b) as [w h] eqn:EM. cbn [fst snd] in S1. rewrite S1. unfold box_render. rewrite EM. unfold b1, box_render. rewrite EM. reflexivity. }
  rewrite S2. split; auto. split; auto. split; auto. unfold box_layout. rewrite Q. unfold b1, box_render. destruct (measure sw b); reflexivity.
Qed.

Print Assumptions C45_main_axis. Print Assumptions C45_modes. Print Assumptions C46_cross_axis. Print Assumptions C46_box_alignment.
Print Assumptions C98_stretch_changes_nothing_refuted. Print Assumptions C98_stretch_position_partial. Print Assumptions C47_constrain. Print Assumptions C47_bounds_checked.
Print Assumptions C48_measured_is_rendered. Print Assumptions C162_bordered_height_refuted. Print Assumptions C99_frame. Print Assumptions C100_frame_of_any_text_refuted.
Print Assumptions C295_ascii_line. Print Assumptions C101_size_ignored_refuted. Print Assumptions C266_measured_size. Print Assumptions C102_picture.
Print Assumptions C102_no_panic. Print Assumptions C103_render_changes_nothing_refuted. Print Assumptions C267_render_again.
