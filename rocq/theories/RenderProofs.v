From Verif Require Import Prelude TermEmu RenderModel RenderSpec.

(* ================= equality tests ================= *)
Lemma color_eqb_eq a b : color_eqb a b = true <-> a = b.
Proof.
  destruct a, b. unfold color_eqb; cbn. split; intros H.
  - f_equal; lia.
  - injection H as -> -> ->. lia.
Qed.

Lemma opt_eqb_eq {A} (f : A -> A -> bool) (Hf : forall a b, f a b = true <-> a = b) a b :
  opt_eqb f a b = true <-> a = b.
Proof.
  destruct a, b; cbn; split; intros H; try discriminate; auto.
  - apply Hf in H. congruence.
  - apply Hf. congruence.
Qed.

Lemma style_eqb_eq a b : style_eqb a b = true <-> a = b.
Proof.
  unfold style_eqb. rewrite !andb_true_iff, !(opt_eqb_eq color_eqb color_eqb_eq), !eqb_true_iff.
  destruct a, b; cbn. split.
  - intros H; decompose [and] H; congruence.
  - intros H; injection H; intros; subst; tauto.
Qed.

Lemma cell_eqb_eq a b : cell_eqb a b = true <-> a = b.
Proof.
  unfold cell_eqb. rewrite !andb_true_iff, style_eqb_eq, !Z.eqb_eq. destruct a, b; cbn.
  split.
  - intros [[-> ->] ->]; reflexivity.
  - intros H; injection H; auto.
Qed.

Lemma cell_eqb_neq a b : cell_eqb a b = false <-> a <> b.
Proof.
  split.
  - intros H Heq. apply cell_eqb_eq in Heq. congruence.
  - intros H. destruct (cell_eqb a b) eqn:E; auto. apply cell_eqb_eq in E. contradiction.
Qed.

Lemma style_empty_eq s : style_empty s = true <-> s = style0.
Proof.
  unfold style_empty, style0. destruct s as [f b b1 b2 b3 b4 b5 b6 b7 b8]; cbn.
  split.
  - intros H. destruct f, b, b1, b2, b3, b4, b5, b6, b7, b8; cbn in H; try discriminate; reflexivity.
  - intros H; injection H; intros; subst; reflexivity.
Qed.

(* ================= coordinates ================= *)
Lemma in_coords w h x y : In (x, y) (coords w h) <-> (x < w /\ y < h)%nat.
Proof.
  unfold coords. rewrite in_flat_map. split.
  - intros (y' & Hy & Hx). apply in_map_iff in Hx as (x' & Heq & Hx).
    injection Heq as -> ->. apply in_seq in Hx, Hy. lia.
  - intros [Hx Hy]. exists y. split; [apply in_seq; lia|].
    apply in_map_iff. exists x. split; auto. apply in_seq; lia.
Qed.

Definition plt (a b : nat * nat) : Prop := (snd a < snd b)%nat \/ (snd a = snd b /\ fst a < fst b)%nat.

Lemma ss_app {A} (R : A -> A -> Prop) l1 l2 :
  StronglySorted R l1 -> StronglySorted R l2 ->
  (forall a b, In a l1 -> In b l2 -> R a b) -> StronglySorted R (l1 ++ l2).
Proof.
  intros H1 H2 H. induction l1 as [|a l1 IH]; cbn; auto.
  apply StronglySorted_inv in H1 as [Hs Hf]. constructor.
  - apply IH; auto. intros; apply H; cbn; auto.
  - apply Forall_app. split; auto. apply Forall_forall. intros b Hb. apply H; cbn; auto.
Qed.

Lemma seq_sorted : forall n s, StronglySorted lt (seq s n).
Proof.
  induction n; intros s; cbn; constructor; auto.
  apply Forall_forall. intros a Ha. apply in_seq in Ha. lia.
Qed.

Lemma coords_sorted w h : StronglySorted plt (coords w h).
Proof.
  unfold coords. assert (H := seq_sorted h 0). induction H as [|y l Hs IH Hf]; cbn; [constructor|].
  apply ss_app; auto.
  - clear. assert (H := seq_sorted w 0). induction H as [|x l Hs IH Hf]; cbn; constructor; auto.
    apply Forall_forall. intros p Hp. apply in_map_iff in Hp as (x' & <- & Hx').
    right. cbn. split; auto. rewrite Forall_forall in Hf. auto.
  - intros a b Ha Hb. apply in_map_iff in Ha as (x' & <- & Hx').
    apply in_flat_map in Hb as (y' & Hy' & Hb). apply in_map_iff in Hb as (x2 & <- & _).
    left. cbn. rewrite Forall_forall in Hf. auto.
Qed.

(** Operations chosen from positions by a test. *)
Definition pick (test : nat * nat -> bool) (mk : nat * nat -> cell) (l : list (nat * nat)) : list op :=
  flat_map (fun p => if test p then [] else [Op (Z.of_nat (fst p)) (Z.of_nat (snd p)) (mk p)]) l.

Lemma in_pick test mk l o : In o (pick test mk l) <->
  exists p, In p l /\ test p = false /\ o = Op (Z.of_nat (fst p)) (Z.of_nat (snd p)) (mk p).
Proof.
  unfold pick. rewrite in_flat_map. split; intros (p & Hp & H); exists p.
  - destruct (test p) eqn:E; cbn in H; [contradiction|]. destruct H as [<-|[]]. auto.
  - destruct H as [-> ->]. cbn. auto.
Qed.

Lemma pick_sorted test mk l : StronglySorted plt l -> StronglySorted before (pick test mk l).
Proof.
  intros H. induction H as [|p l Hs IH Hf]; cbn; [constructor|].
  destruct (test p) eqn:E; cbn; auto. constructor; auto.
  apply Forall_forall. intros o Ho. apply in_pick in Ho as (q & Hq & _ & ->).
  rewrite Forall_forall in Hf. specialize (Hf q Hq). unfold before, plt in *. cbn. lia.
Qed.

Lemma diff_pick old new : same_dims old new = true ->
  diff old new = pick (fun p => cell_eqb (get old (Z.of_nat (fst p)) (Z.of_nat (snd p)))
                                         (get new (Z.of_nat (fst p)) (Z.of_nat (snd p))))
                      (fun p => get new (Z.of_nat (fst p)) (Z.of_nat (snd p)))
                      (coords (bw new) (bh new)).
Proof.
  intros H. unfold diff, pick. rewrite H. apply flat_map_ext. intros [x y]. reflexivity.
Qed.

Lemma diff_full_pick b :
  diff_full b = pick (fun p => cell_empty (get b (Z.of_nat (fst p)) (Z.of_nat (snd p))))
                     (fun p => get b (Z.of_nat (fst p)) (Z.of_nat (snd p)))
                     (coords (bw b) (bh b)).
Proof. unfold diff_full, pick. apply flat_map_ext. intros [x y]. reflexivity. Qed.

Lemma in_range_spec b x y :
  in_range b x y = true <-> 0 <= x < Z.of_nat (bw b) /\ 0 <= y < Z.of_nat (bh b).
Proof. unfold in_range. lia. Qed.

Lemma get_out b x y : in_range b x y = false -> get b x y = empty_cell.
Proof. unfold get. intros ->. reflexivity. Qed.

Lemma in_coords_Z b p : In p (coords (bw b) (bh b)) <->
  in_range b (Z.of_nat (fst p)) (Z.of_nat (snd p)) = true.
Proof. destruct p as [x y]. rewrite in_coords, in_range_spec. cbn. lia. Qed.

(* ================= C01/C02 diff ================= *)
Lemma in_diff old new o : same_dims old new = true ->
  (In o (diff old new) <->
   in_range new (ox o) (oy o) = true /\ get old (ox o) (oy o) <> get new (ox o) (oy o) /\
   ocell o = get new (ox o) (oy o)).
Proof.
  intros Hd. rewrite diff_pick, in_pick by auto. split.
  - intros (p & Hp & Ht & ->). cbn. apply in_coords_Z in Hp. apply cell_eqb_neq in Ht. auto.
  - intros (Hr & Hn & Hc). exists (Z.to_nat (ox o), Z.to_nat (oy o)). cbn.
    assert (Hr' := Hr). apply in_range_spec in Hr'.
    rewrite !Z2Nat.id by lia. split; [|split].
    + apply in_coords_Z. cbn. rewrite !Z2Nat.id by lia. auto.
    + apply cell_eqb_neq. auto.
    + destruct o; cbn in *; subst; auto.
Qed.

Lemma diff_sorted old new : same_dims old new = true -> StronglySorted before (diff old new).
Proof. intros H. rewrite diff_pick by auto. apply pick_sorted, coords_sorted. Qed.

Lemma diff_full_sorted b : StronglySorted before (diff_full b).
Proof. rewrite diff_full_pick. apply pick_sorted, coords_sorted. Qed.

Lemma in_diff_full b o :
  In o (diff_full b) <->
  in_range b (ox o) (oy o) = true /\ cell_empty (get b (ox o) (oy o)) = false /\
  ocell o = get b (ox o) (oy o).
Proof.
  rewrite diff_full_pick, in_pick. split.
  - intros (p & Hp & Ht & ->). cbn. apply in_coords_Z in Hp. auto.
  - intros (Hr & Hn & Hc). exists (Z.to_nat (ox o), Z.to_nat (oy o)). cbn.
    assert (Hr' := Hr). apply in_range_spec in Hr'.
    rewrite !Z2Nat.id by lia. split; [|split]; auto.
    + apply in_coords_Z. cbn. rewrite !Z2Nat.id by lia. auto.
    + destruct o; cbn in *; subst; auto.
Qed.

Lemma patch_none ops : forall f x y,
  (forall o, In o ops -> ~ (ox o = x /\ oy o = y)) -> patch f ops x y = f x y.
Proof.
  induction ops as [|o ops IH]; intros f x y H; cbn; auto.
  unfold patch in *. rewrite IH by (intros; apply H; cbn; auto).
  unfold patch1. specialize (H o (or_introl eq_refl)).
  destruct ((x =? ox o) && (y =? oy o)) eqn:E; auto. lia.
Qed.

Lemma patch_one ops : forall f x y c,
  StronglySorted before ops -> In (Op x y c) ops -> patch f ops x y = c.
Proof.
  induction ops as [|o ops IH]; intros f x y c Hs Hin; [destruct Hin|].
  apply StronglySorted_inv in Hs as [Hs Hf]. destruct Hin as [->|Hin].
  - change (patch f (Op x y c :: ops)) with (patch (patch1 f (Op x y c)) ops).
    rewrite patch_none.
    + unfold patch1. cbn. rewrite !Z.eqb_refl. reflexivity.
    + intros o Ho [Hx Hy]. rewrite Forall_forall in Hf. specialize (Hf o Ho).
      unfold before in Hf. cbn in Hf. lia.
  - change (patch f (o :: ops)) with (patch (patch1 f o) ops). eauto.
Qed.

Lemma diff_patch old new : same_dims old new = true ->
  forall x y, patch (get old) (diff old new) x y = get new x y.
Proof.
  intros Hd x y. destruct (in_range new x y) eqn:Hr.
  - destruct (cell_eqb (get old x y) (get new x y)) eqn:E.
    + apply cell_eqb_eq in E. rewrite patch_none; auto.
      intros o Ho [Hx Hy]. apply in_diff in Ho; auto. subst. tauto.
    + apply cell_eqb_neq in E. apply patch_one.
      * apply diff_sorted; auto.
      * apply in_diff; cbn; auto.
  - rewrite patch_none.
    + assert (Hro : in_range old x y = false).
      { unfold same_dims in Hd. unfold in_range in *. lia. }
      rewrite !get_out; auto.
    + intros o Ho [Hx Hy]. apply in_diff in Ho; auto. subst. destruct Ho as (Ho & _). congruence.
Qed.

Lemma has_changes_diff old new : same_dims old new = true ->
  (has_changes (Some old) (Some new) = true <-> diff old new <> []).
Proof.
  intros Hd. unfold has_changes. rewrite Hd, existsb_exists. split.
  - intros ([x y] & Hin & Hne) Hnil.
    assert (Hop : In (Op (Z.of_nat x) (Z.of_nat y) (get new (Z.of_nat x) (Z.of_nat y))) (diff old new)).
    { apply in_diff; auto. cbn. split; [|split; auto].
      - apply in_coords_Z in Hin. auto.
      - apply cell_eqb_neq. destruct (cell_eqb _ _); auto; discriminate. }
    rewrite Hnil in Hop. destruct Hop.
  - intros Hne. destruct (diff old new) as [|o l] eqn:E; [congruence|].
    assert (Ho : In o (diff old new)) by (rewrite E; cbn; auto).
    rewrite diff_pick, in_pick in Ho by auto. destruct Ho as ([x y] & Hp & Ht & _).
    exists (x, y). split; auto. cbn in Ht. rewrite Ht. reflexivity.
Qed.

Lemma has_changes_frames old new : same_dims old new = true ->
  (has_changes (Some old) (Some new) = false <-> forall x y, get old x y = get new x y).
Proof.
  intros Hd. pose proof (has_changes_diff old new Hd) as H. split.
  - intros Hf x y. rewrite <- (diff_patch old new Hd).
    destruct (diff old new) eqn:E; auto. exfalso.
    assert (has_changes (Some old) (Some new) = true) by (apply H; discriminate). congruence.
  - intros He. apply not_true_iff_false. intros E.
    apply H in E. destruct (diff old new) as [|o l] eqn:E2; [congruence|].
    assert (Ho : In o (diff old new)) by (rewrite E2; cbn; auto).
    apply in_diff in Ho; auto. destruct Ho as (_ & Hne & _). apply Hne, He.
Qed.

(* ================= buffers ================= *)
Lemma wf_new w h : wf_buf (new_buffer w h).
Proof.
  split; cbn; [apply repeat_length|]. apply Forall_forall. intros r Hr.
  apply repeat_spec in Hr as ->. apply repeat_length.
Qed.

Lemma wf_clear b : wf_buf (clear_buf b).
Proof.
  unfold clear_buf. apply wf_new.
Qed.

Lemma wf_fill b c : wf_buf (fill b c).
Proof.
  split; cbn; [apply repeat_length|]. apply Forall_forall. intros r Hr.
  apply repeat_spec in Hr as ->. apply repeat_length.
Qed.

Lemma nth_row_length b y : wf_buf b -> (y < bh b)%nat -> length (nth y (cells b) []) = bw b.
Proof.
  intros [Hl Hf] Hy. rewrite Forall_forall in Hf. apply Hf. apply nth_In. lia.
Qed.

Lemma Forall_set_nth {A} (P : A -> Prop) l i v : Forall P l -> P v -> Forall P (set_nth l i v).
Proof.
  revert i. induction l as [|h t IH]; intros i Hl Hv; destruct i; cbn; auto.
  - inversion Hl; constructor; auto.
  - inversion Hl; constructor; auto.
Qed.

Lemma wf_set b x y c : wf_buf b -> wf_buf (set b x y c).
Proof.
  intros Hwf. unfold set. destruct (in_range b x y) eqn:E; auto.
  apply in_range_spec in E. destruct Hwf as [Hl Hf]. split; cbn.
  - rewrite set_nth_length. auto.
  - apply Forall_set_nth; auto. rewrite set_nth_length.
    apply nth_row_length; [split; auto|lia].
Qed.

Lemma set_dims b x y c : bw (set b x y c) = bw b /\ bh (set b x y c) = bh b.
Proof. unfold set. destruct (in_range b x y); auto. Qed.

Lemma get_set b x y c x' y' : wf_buf b ->
  get (set b x y c) x' y' =
  if (x =? x') && (y =? y') && in_range b x y then c else get b x' y'.
Proof.
  intros Hwf. unfold set. destruct (in_range b x y) eqn:E.
  2:{ rewrite andb_false_r. reflexivity. }
  rewrite andb_true_r. apply in_range_spec in E.
  unfold get. replace (in_range (Buffer (bw b) (bh b) _) x' y') with (in_range b x' y') by reflexivity.
  destruct (in_range b x' y') eqn:E'.
  - apply in_range_spec in E'. unfold cell_at. cbn [cells].
    rewrite nth_set_nth. destruct Hwf as [Hl Hf].
    destruct ((x =? x') && (y =? y')) eqn:Exy.
    + assert (x' = x) by lia. assert (y' = y) by lia. subst.
      rewrite Nat.eqb_refl. rewrite Hl.
      replace (Z.to_nat y <? bh b)%nat with true by lia. cbn.
      rewrite nth_set_nth, Nat.eqb_refl.
      rewrite nth_row_length by (try split; auto; lia).
      replace (Z.to_nat x <? bw b)%nat with true by lia. reflexivity.
    + destruct ((Z.to_nat y =? Z.to_nat y')%nat && (Z.to_nat y <? length (cells b))%nat) eqn:Ey; auto.
      assert (y' = y) by lia. subst y'. rewrite nth_set_nth.
      replace (Z.to_nat x =? Z.to_nat x')%nat with false by lia. reflexivity.
  - destruct ((x =? x') && (y =? y')) eqn:Exy; auto.
    exfalso. assert (x' = x) by lia. assert (y' = y) by lia. subst.
    apply in_range_spec in E. congruence.
Qed.

Lemma nth_repeat_lt {A} (a d : A) : forall n i, (i < n)%nat -> nth i (repeat a n) d = a.
Proof. induction n; intros i Hi; [lia|]. destruct i; cbn; auto. apply IHn. lia. Qed.

Lemma get_new w h x y : get (new_buffer w h) x y = empty_cell.
Proof.
  unfold get. destruct (in_range _ _ _) eqn:E; auto. apply in_range_spec in E. cbn in E.
  unfold cell_at. cbn. rewrite nth_repeat_lt by lia. apply nth_repeat_lt. lia.
Qed.

Lemma get_clear b x y : get (clear_buf b) x y = empty_cell.
Proof. apply get_new. Qed.

Lemma get_fill b c x y : get (fill b c) x y = if in_range b x y then c else empty_cell.
Proof.
  unfold get. replace (in_range (fill b c) x y) with (in_range b x y) by reflexivity.
  destruct (in_range b x y) eqn:E; auto. apply in_range_spec in E.
  unfold cell_at. cbn. rewrite nth_repeat_lt by lia. apply nth_repeat_lt. lia.
Qed.

Lemma wf_resize b w h : wf_buf (resize b w h).
Proof.
  split; cbn.
  - rewrite map_length, seq_length. reflexivity.
  - apply Forall_forall. intros r Hr. apply in_map_iff in Hr as (y & <- & _).
    rewrite map_length, seq_length. reflexivity.
Qed.

Lemma get_resize b w h x y :
  get (resize b w h) x y =
  if (0 <=? x) && (x <? w) && (0 <=? y) && (y <? h) then get b x y else empty_cell.
Proof.
  unfold get at 1. unfold in_range. cbn [resize bw bh].
  destruct ((0 <=? x) && (x <? w) && (0 <=? y) && (y <? h)) eqn:E.
  - replace (negb _) with true by lia.
    unfold cell_at. cbn [resize cells].
    rewrite nth_indep with (d' := map (fun x0 => if ((0 <? bh b)%nat && (x0 <? bw b)%nat)%bool then cell_at b x0 0 else empty_cell) (seq 0 (Z.to_nat w)))
      by (rewrite map_length, seq_length; lia).
    pose (F := fun y0 : nat => map (fun x0 : nat => if ((y0 <? bh b)%nat && (x0 <? bw b)%nat)%bool then cell_at b x0 y0 else empty_cell) (seq 0 (Z.to_nat w))).
    change (nth (Z.to_nat x) (nth (Z.to_nat y) (map F (seq 0 (Z.to_nat h))) (F 0%nat)) empty_cell = get b x y).
    rewrite (map_nth F), seq_nth by lia. unfold F.
    rewrite nth_indep with (d' := (fun x0 : nat => if ((0 + Z.to_nat y <? bh b)%nat && (x0 <? bw b)%nat)%bool then cell_at b x0 (0 + Z.to_nat y) else empty_cell) 0%nat)
      by (rewrite map_length, seq_length; lia).
    pose (G := fun x0 : nat => if ((0 + Z.to_nat y <? bh b)%nat && (x0 <? bw b)%nat)%bool then cell_at b x0 (0 + Z.to_nat y) else empty_cell).
    change (nth (Z.to_nat x) (map G (seq 0 (Z.to_nat w))) (G 0%nat) = get b x y).
    rewrite (map_nth G), seq_nth by lia. unfold G. cbn [Nat.add].
    unfold get, in_range.
    destruct ((Z.to_nat y <? bh b)%nat && (Z.to_nat x <? bw b)%nat)%bool eqn:E2.
    + replace (negb _) with true by lia. reflexivity.
    + replace (negb _) with false by lia. reflexivity.
  - replace (negb _) with false by lia. reflexivity.
Qed.
