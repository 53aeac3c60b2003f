(** Lemmas about the layout model. *)
From Verif Require Import Prelude Utf8 Text LyModel.

(* ---------- boxes the API can make ---------- *)
Inductive reach (sw : list Z -> Z) : box -> Prop :=
| reach_new c b : new_box c = Some b -> reach sw b
| reach_step b o b' : reach sw b -> bstep b o = Some b' -> reach sw b'
| reach_render b : reach sw b -> reach sw (fst (box_render sw b)).
Definition swf (s : size) : Prop := -1 <= sw_ s /\ -1 <= sh_ s /\ -1 <= minw s /\ -1 <= maxw s /\ -1 <= minh s /\ -1 <= maxh s /\
  (minw s <> -1 -> maxw s <> -1 -> minw s <= maxw s) /\ (minh s <> -1 -> maxh s <> -1 -> minh s <= maxh s).
Definition spwf (s : spacing) : Prop := 0 <= top s /\ 0 <= right s /\ 0 <= bottom s /\ 0 <= left s.
Definition bwf (b : box) : Prop := swf (bsize b) /\ spwf (padding b) /\ spwf (margin b) /\ content b <> [].
Lemma neg1_rng v : -1 <= neg1 v.
Proof. unfold neg1. destruct (v <? 0) eqn:?; lia. Qed.
Lemma new_size_wf w h a b c d s : new_size w h a b c d = Some s -> swf s.
Proof.
  unfold new_size. pose proof (neg1_rng w). pose proof (neg1_rng h). pose proof (neg1_rng a). pose proof (neg1_rng b). pose proof (neg1_rng c). pose proof (neg1_rng d).
  destruct (_ && (neg1 b <? neg1 a)) eqn:E1; [discriminate|]. destruct (_ && (neg1 d <? neg1 c)) eqn:E2; [discriminate|]. intros Q. apply some_inj in Q. subst s. unfold swf. cbn [sw_ sh_ minw maxw minh maxh]. lia.
Qed.
Lemma size_exact_wf w h : swf (size_exact w h).
Proof. unfold swf, size_exact. cbn. pose proof (neg1_rng w). pose proof (neg1_rng h). lia. Qed.
Lemma reach_wf sw b : reach sw b -> bwf b.
Proof.
  induction 1 as [c b H|b o b' R I H|b R I].
  - unfold new_box in H. destruct c; [discriminate|]. apply some_inj in H. subst b. split; [apply size_exact_wf|]. repeat split; cbn; try lia. discriminate.
  - destruct I as (I1 & I2 & I3 & I4). destruct o; cbn [bstep] in H; try (apply some_inj in H; subst b'); [|split; [|split; [|split]]; cbn [bsize padding margin content]; auto; unfold spwf, new_spacing; cbn; lia..].
    destruct (with_size_op (bsize b) o) as [s|] eqn:E; [|discriminate]. apply some_inj in H. subst b'. split; [|split; [|split]]; cbn [bsize padding margin content]; auto. destruct o; eapply new_size_wf; eauto.
  - destruct I as (I1 & I2 & I3 & I4). unfold box_render. destruct (measure sw b) as [w h]. cbn [fst]. split; [apply size_exact_wf|]. auto.
Qed.
(* ---------- measuring ---------- *)
Lemma max_of_acc f ls : forall a, fold_left (fun m l => if m <? f l then f l else m) ls a = Z.max a (max_of f ls) \/ (exists l, In l ls /\ f l < 0) \/ a < 0.
Proof.
  unfold max_of. induction ls as [|l t IH]; intros a; cbn [fold_left]; [destruct (Z.ltb_spec a 0); [auto|left; lia]|].
  destruct (Z.ltb_spec (f l) 0); [right; left; exists l; cbn; auto|]. destruct (Z.ltb_spec a 0); [auto|].
  destruct (IH (if a <? f l then f l else a)) as [E|[(x & X1 & X2)|E]]; [|right; left; exists x; cbn; auto|destruct (a <? f l) eqn:?; lia].
  destruct (IH (if 0 <? f l then f l else 0)) as [E2|[(x & X1 & X2)|E2]]; [|right; left; exists x; cbn; auto|destruct (0 <? f l) eqn:?; lia].
  left. rewrite E, E2. destruct (a <? f l) eqn:?, (0 <? f l) eqn:?; lia.
Qed.
Lemma max_of_cons f l ls : (forall x, 0 <= f x) -> max_of f (l :: ls) = Z.max (f l) (max_of f ls).
Proof.
  intros P. unfold max_of at 1. cbn [fold_left]. destruct (max_of_acc f ls (if 0 <? f l then f l else 0)) as [E|[(x & _ & X)|E]]; [|pose proof (P x); lia|pose proof (P l); destruct (0 <? f l) eqn:?; lia].
  rewrite E. pose proof (P l). destruct (0 <? f l) eqn:?; [lia|]. lia.
Qed.
Lemma max_of_spec f ls : (forall x, 0 <= f x) -> 0 <= max_of f ls /\ (forall l, In l ls -> f l <= max_of f ls) /\ (ls <> [] -> exists l, In l ls /\ f l = max_of f ls).
Proof.
  intros P. induction ls as [|l ls (I1 & I2 & I3)].
  - repeat split; [cbn; lia|intros l []|congruence].
  - rewrite max_of_cons by auto. pose proof (P l). split; [lia|]. split.
    + intros x [->|X]; [lia|]. specialize (I2 x X). lia.
    + intros _. destruct (Z.le_gt_cases (max_of f ls) (f l)); [exists l; cbn; split; auto; lia|]. destruct ls as [|m ls]; [cbn in *; lia|].
      destruct I3 as (x & X1 & X2); [discriminate|]. exists x. split; [right; auto|]. lia.
Qed.
Lemma max_of_ext f g ls : (forall l, In l ls -> f l = g l) -> max_of f ls = max_of g ls.
Proof.
  unfold max_of. generalize 0. induction ls as [|l ls IH]; intros a H; auto. cbn [fold_left]. rewrite (H l) by (left; auto). apply IH. intros x X. apply H. right; auto.
Qed.
Lemma constrain1_nonneg e mn mx v : -1 <= e -> -1 <= mn -> -1 <= mx -> 0 <= v -> 0 <= constrain1 e mn mx v.
Proof.
  intros. unfold constrain1. destruct (e =? -1) eqn:E; cbn [negb]; [|lia]. destruct (mn =? -1) eqn:E1, (mx =? -1) eqn:E2; cbn [negb andb];
  repeat match goal with |- context [if ?b then _ else _] => destruct b eqn:? end; lia.
Qed.
(** The size a box asks for before its own constraints: what measuring is meant to be. *)
Definition natural (sw : list Z -> Z) (b : box) : Z * Z :=
  (max_of sw (split_nl (content b)) + horiz (padding b) + horiz (margin b) + (if border b then 4 else 0),
   Z.of_nat (length (split_nl (content b))) + vert (padding b) + vert (margin b) + (if border b then 4 else 0)).
Lemma measure_eq sw b : (forall x, 0 <= sw x) -> bwf b -> measure sw b = constrain (bsize b) (fst (natural sw b)) (snd (natural sw b)) /\ 0 <= fst (measure sw b) /\ 0 <= snd (measure sw b) /\ 0 <= fst (natural sw b) /\ 0 <= snd (natural sw b).
Proof.
  intros P (S1 & S2 & S3 & C). destruct (max_of_spec sw (split_nl (content b)) P) as (M & _ & _). unfold spwf in *.
  assert (N1 : 0 <= fst (natural sw b)) by (unfold natural, horiz; cbn [fst]; destruct (border b); lia). assert (N2 : 0 <= snd (natural sw b)) by (unfold natural, vert; cbn [snd]; destruct (border b); lia).
  assert (E : measure sw b = constrain (bsize b) (fst (natural sw b)) (snd (natural sw b))).
  { unfold measure, measure_content. destruct (content b) eqn:Ec; [congruence|]. rewrite <- Ec.
    replace (max_of sw (split_nl (content b)) + (horiz (padding b) + (if border b then 2 else 0)) + (if border b then 2 else 0) + horiz (margin b)) with (fst (natural sw b)) by (unfold natural; cbn [fst]; destruct (border b); lia).
    replace (Z.of_nat (length (split_nl (content b))) + (vert (padding b) + (if border b then 2 else 0)) + (if border b then 2 else 0) + vert (margin b)) with (snd (natural sw b)) by (unfold natural; cbn [snd]; destruct (border b); lia).
    unfold constrain. cbn [size_exact sw_ sh_]. unfold swf in S1. unfold neg1. f_equal; match goal with |- context [?x <? 0] => assert (0 <= x) by (apply constrain1_nonneg; tauto); replace (x <? 0) with false by lia end; reflexivity. }
  split; auto. unfold swf in S1. rewrite E. unfold constrain. cbn [fst snd]. repeat split; auto; apply constrain1_nonneg; tauto.
Qed.
(* ---------- placing along an axis ---------- *)
Definition sum (l : list Z) : Z := fold_right Z.add 0 l.
Lemma fold_sum l : forall a, fold_left Z.add l a = a + sum l.
Proof. induction l as [|x l IH]; intros a; cbn [fold_left sum fold_right]; [lia|]. rewrite IH. unfold sum. lia. Qed.
Lemma sum_nonneg l : Forall (fun x => 0 <= x) l -> 0 <= sum l.
Proof. induction 1; cbn [sum fold_right]; [lia|]. unfold sum in *. lia. Qed.
Lemma place_length step l : forall p, length (place p step l) = length l.
Proof. induction l; intros p; cbn [place length]; auto. Qed.
Lemma place_nth step l : forall p i, (i < length l)%nat -> nth_error (place p step l) i = Some (p + sum (firstn i l) + Z.of_nat i * step).
Proof.
  induction l as [|s l IH]; intros p i H; [cbn in H; lia|]. destruct i as [|i]; cbn [place nth_error firstn sum fold_right]; [f_equal; lia|].
  rewrite IH by (cbn in H; lia). f_equal. unfold sum. lia.
Qed.
Lemma sum_firstn_S l : forall i s, nth_error l i = Some s -> sum (firstn (S i) l) = sum (firstn i l) + s.
Proof.
  induction l as [|x l IH]; intros i s H; [destruct i; discriminate|]. destruct i; cbn [nth_error] in H.
  - apply some_inj in H. subst. cbn. lia.
  - cbn [firstn sum fold_right] in *. specialize (IH i s H). unfold sum in *. cbn [firstn] in IH. lia.
Qed.
Lemma sum_firstn_le l i : Forall (fun x => 0 <= x) l -> sum (firstn i l) <= sum l.
Proof.
  revert i. induction l as [|x l IH]; intros i H; [destruct i; cbn; lia|]. inversion_clear H as [|? ? H1 H2]. destruct i; cbn [firstn sum fold_right]; [pose proof (sum_nonneg l H2); unfold sum in *; lia|].
  specialize (IH i H2). unfold sum in *. lia.
Qed.
Lemma sum_firstn_nonneg l i : Forall (fun x => 0 <= x) l -> 0 <= sum (firstn i l).
Proof. intros H. apply sum_nonneg. rewrite Forall_forall in *. intros x X. apply H. rewrite <- (firstn_skipn i l). apply in_or_app. auto. Qed.
(** What all modes have in common: start and step of an arithmetic-like progression. *)
Definition jstart (j : justify) (rem : Z) : Z := match j with JStart | JBetween => 0 | JEnd => rem | JCenter => rem / 2 end.
Definition jstep (j : justify) (gap rem : Z) (n : nat) : Z := match j with JBetween => if (n <=? 1)%nat then gap else gap + rem / (Z.of_nat n - 1) | _ => gap end.
Lemma main_positions_eq j gap sizes container : let rem := Z.max 0 (container - sum sizes - total_gap gap (length sizes)) in
  main_positions j gap sizes container = place (jstart j rem) (jstep j gap rem (length sizes)) sizes.
Proof.
  intros rem. unfold main_positions. rewrite fold_sum. assert (R : (if container - (0 + sum sizes + total_gap gap (length sizes)) <? 0 then 0 else container - (0 + sum sizes + total_gap gap (length sizes))) = rem) by (subst rem; destruct (_ <? 0) eqn:?; lia).
  rewrite R. assert (0 <= rem) by lia. clearbody rem. destruct j; cbn [jstart jstep]; auto.
  - rewrite Z.quot_div_nonneg by lia. reflexivity.
  - destruct sizes as [|a [|b t]]; auto. rewrite Z.quot_div_nonneg by (cbn [length]; lia). reflexivity.
Qed.
(* ---------- painting ---------- *)
Definition cell (g : list (list Z)) (r c : nat) : option Z := match nth_error g r with Some row => nth_error row c | None => None end.
Definition gwf (g : list (list Z)) (h w : nat) : Prop := length g = h /\ Forall (fun row => length row = w) g.
Definition draw (ls : list (list Z)) (x y r c : nat) : option Z :=
  if ((y <=? r) && (x <=? c))%nat then nth_error (nth (r - y) ls []) (c - x) else None.
Lemma paint_row_spec row x w l : length row = w -> (x < w)%nat -> length (paint_row row x w l) = w /\
  forall c, (c < w)%nat -> nth_error (paint_row row x w l) c = if (x <=? c)%nat then match nth_error l (c - x) with Some ch => Some ch | None => nth_error row c end else nth_error row c.
Proof.
  intros L X. unfold paint_row. set (m := firstn (w - x) l). assert (LM : (length m <= w - x)%nat) by (unfold m; rewrite firstn_length; lia). split.
  - rewrite !app_length, firstn_length, skipn_length. lia.
  - intros c C. assert (LF : length (firstn x row) = x) by (rewrite firstn_length; lia). destruct (Nat.leb_spec x c).
    + rewrite nth_error_app2 by lia. rewrite LF. destruct (Nat.ltb_spec (c - x) (length m)).
      * rewrite nth_error_app1 by auto. assert (nth_error l (c - x) = nth_error m (c - x)) as -> by (unfold m; rewrite nth_error_firstn; destruct (Nat.ltb_spec (c - x) (w - x)); auto; lia).
        destruct (nth_error m (c - x)) eqn:E; auto. apply nth_error_None in E. lia.
      * rewrite nth_error_app2 by lia. assert (nth_error l (c - x) = None) as ->. { apply nth_error_None. unfold m in *. rewrite firstn_length in *. lia. }
        rewrite nth_error_skipn. f_equal. lia.
    + rewrite nth_error_app1 by lia. rewrite nth_error_firstn. destruct (Nat.ltb_spec c x); auto; lia.
Qed.
Lemma nth_error_nth_nil ls i c : nth_error (nth i ls []) c = match nth_error ls i with Some l => nth_error l c | None => None (A := Z) end.
Proof. revert i. induction ls as [|l t IH]; intros [|i]; cbn [nth nth_error]; auto; destruct c; auto. Qed.
Lemma paint_lines_spec ls : forall g y x h w, gwf g h w -> gwf (paint_lines g y x w ls) h w /\
  forall r c, (r < h)%nat -> (c < w)%nat -> cell (paint_lines g y x w ls) r c = match draw ls x y r c with Some ch => Some ch | None => cell g r c end.
Proof.
  induction ls as [|l t IH]; intros g y x h w [G1 G2].
  - cbn [paint_lines]. split; [split; auto|]. intros r c _ _. unfold draw. destruct (_ && _)%bool; auto. destruct (r - y)%nat, (c - x)%nat; reflexivity.
  - cbn [paint_lines]. destruct (nth_error g y) as [row|] eqn:E.
    + assert (Y : (y < length g)%nat) by (apply nth_error_Some; congruence). assert (LR : length row = w) by (rewrite Forall_forall in G2; apply G2; eapply nth_error_In; eauto).
      set (row' := if (x <? w)%nat then paint_row row x w l else row).
      assert (R : length row' = w /\ forall c, (c < w)%nat -> nth_error row' c = if (x <=? c)%nat then match nth_error l (c - x) with Some ch => Some ch | None => nth_error row c end else nth_error row c).
      { unfold row'. destruct (Nat.ltb_spec x w); [apply paint_row_spec; auto|]. split; auto. intros c C. destruct (Nat.leb_spec x c); auto; lia. }
      destruct R as [R1 R2]. clearbody row'. destruct (IH (set_nth g y row') (S y) x h w) as [I1 I2].
      { split; [rewrite set_nth_length; auto|]. rewrite Forall_forall in *. intros z Z0. apply In_nth_error in Z0 as [k K]. rewrite nth_error_set_nth in K. destruct (_ && _)%bool; [apply some_inj in K; congruence|apply G2; eapply nth_error_In; eauto]. }
      split; auto. intros r c Hr Hc. rewrite I2 by auto. unfold cell at 1. rewrite nth_error_set_nth. replace (y <? length g)%nat with true by (symmetry; apply Nat.ltb_lt; auto). rewrite andb_true_r.
      unfold draw. destruct (Nat.eqb_spec y r).
      * subst r. replace (S y <=? y)%nat with false by (symmetry; apply Nat.leb_gt; lia). rewrite Nat.leb_refl, Nat.sub_diag. cbn [andb nth]. rewrite R2 by auto. unfold cell. rewrite E. destruct (x <=? c)%nat; auto.
      * fold (cell g r c). destruct (Nat.leb_spec y r); destruct (Nat.leb_spec (S y) r); try lia; cbn [andb]; auto. destruct (x <=? c)%nat; auto. replace (r - y)%nat with (S (r - S y)) by lia. reflexivity.
    + split; [split; auto|]. intros r c Hr Hc. apply nth_error_None in E. unfold draw. destruct (Nat.leb_spec y r); [lia|]. reflexivity.
Qed.
(** Painting a list of blocks: a cell shows what the last block drawing it put there. *)
Lemma paint_fold (L : list (list (list Z) * (nat * nat))) h w : forall g, gwf g h w ->
  let g' := fold_left (fun g '(ls, (x, y)) => paint_lines g y x w ls) L g in gwf g' h w /\
  forall r c, (r < h)%nat -> (c < w)%nat ->
    ((forall ls x y, In (ls, (x, y)) L -> draw ls x y r c = None) -> cell g' r c = cell g r c) /\
    (forall i ls x y ch, nth_error L i = Some (ls, (x, y)) -> draw ls x y r c = Some ch ->
       (forall j ls2 x2 y2, (i < j)%nat -> nth_error L j = Some (ls2, (x2, y2)) -> draw ls2 x2 y2 r c = None) -> cell g' r c = Some ch).
Proof.
  induction L as [|[ls [x y]] L IH]; intros g G.
  - cbn [fold_left]. split; auto. intros r c Hr Hc. split; auto. intros i ? ? ? ? H. destruct i; discriminate.
  - cbn [fold_left]. destruct (paint_lines_spec ls g y x h w G) as [P1 P2]. destruct (IH _ P1) as [I1 I2]. split; auto. intros r c Hr Hc. destruct (I2 r c Hr Hc) as [J1 J2]. split.
    + intros N. rewrite J1; [|intros; apply N; right; auto]. rewrite P2 by auto. rewrite N by (left; auto). reflexivity.
    + intros i ls0 x0 y0 ch Hi D Later. destruct i as [|i]; cbn [nth_error] in Hi.
      * apply some_inj in Hi. injection Hi as -> -> ->. rewrite J1; [rewrite P2 by auto; rewrite D; reflexivity|]. intros ls2 x2 y2 I. apply In_nth_error in I as [k K]. apply (Later (S k)); [lia|exact K].
      * apply (J2 i ls0 x0 y0 ch Hi D). intros j ls2 x2 y2 Hj K. apply (Later (S j)); [lia|exact K].
Qed.
Lemma fold_left_map {A B C} (f : A -> B -> A) (g : C -> B) l : forall a, fold_left f (map g l) a = fold_left (fun a c => f a (g c)) l a.
Proof. induction l; intros a0; cbn; auto. Qed.
