From Verif Require Import Prelude RenderModel RenderSpec RenderProofs RpModel.

Lemma nth_mapped {A B} (f : A -> B) l i d d0 : (i < length l)%nat -> nth i (map f l) d = f (nth i l d0).
Proof. intros H. rewrite nth_indep with (d' := f d0) by (rewrite map_length; exact H). apply map_nth. Qed.

(* ---------- values ---------- *)
Lemma buf_ext a b : wf_buf a -> wf_buf b -> bw a = bw b -> bh a = bh b ->
  (forall x y, 0 <= x < Z.of_nat (bw a) -> 0 <= y < Z.of_nat (bh a) -> get a x y = get b x y) -> a = b.
Proof.
  intros [La Fa] [Lb Fb] Hw Hh Hg. destruct a as [w h ca], b as [w' h' cb]. cbn [bw bh cells] in *. subst w'. rewrite <- Hh in *. clear Hh h'.
  assert (Ec : ca = cb); [|rewrite Ec; reflexivity].
  apply nth_ext with (d := []) (d' := []); [lia|]. intros y Hy.
  assert (A1 : length (nth y ca []) = w) by (rewrite Forall_forall in Fa; apply Fa, nth_In; lia).
  assert (A2 : length (nth y cb []) = w) by (rewrite Forall_forall in Fb; apply Fb, nth_In; lia).
  apply nth_ext with (d := empty_cell) (d' := empty_cell); [lia|]. intros x Hx.
  specialize (Hg (Z.of_nat x) (Z.of_nat y) ltac:(lia) ltac:(lia)).
  unfold get in Hg. cbn [bw bh] in Hg.
  assert (I : forall cs, in_range (Buffer w h cs) (Z.of_nat x) (Z.of_nat y) = true) by (intros cs; apply in_range_spec; cbn; lia).
  rewrite !I in Hg. unfold cell_at in Hg. cbn [cells] in Hg. rewrite !Nat2Z.id in Hg. exact Hg.
Qed.

Definition set_all (g : nat * nat -> cell) (l : list (nat * nat)) (B : buffer) : buffer :=
  fold_left (fun B p => set B (Z.of_nat (fst p)) (Z.of_nat (snd p)) (g p)) l B.
Lemma set_all_wf g l : forall B, wf_buf B -> wf_buf (set_all g l B) /\ bw (set_all g l B) = bw B /\ bh (set_all g l B) = bh B.
Proof.
  induction l as [|p l IH]; intros B HB; [auto|]. cbn. fold (set_all g l (set B (Z.of_nat (fst p)) (Z.of_nat (snd p)) (g p))).
  destruct (IH _ (wf_set B (Z.of_nat (fst p)) (Z.of_nat (snd p)) (g p) HB)) as (A1 & A2 & A3).
  destruct (set_dims B (Z.of_nat (fst p)) (Z.of_nat (snd p)) (g p)) as [D1 D2]. split; [exact A1|]. split; congruence.
Qed.
Lemma set_all_get g x y l : forall B, wf_buf B -> Forall (fun p => (fst p < bw B)%nat /\ (snd p < bh B)%nat) l ->
  (In (x, y) l -> get (set_all g l B) (Z.of_nat x) (Z.of_nat y) = g (x, y)) /\
  (~ In (x, y) l -> get (set_all g l B) (Z.of_nat x) (Z.of_nat y) = get B (Z.of_nat x) (Z.of_nat y)).
Proof.
  induction l as [|[px py] l IH]; intros B HB Hl; [split; [intros []|auto]|].
  cbn. fold (set_all g l (set B (Z.of_nat px) (Z.of_nat py) (g (px, py)))).
  inversion Hl as [|? ? Hp Hl']; subst. cbn in Hp.
  destruct (set_dims B (Z.of_nat px) (Z.of_nat py) (g (px, py))) as [D1 D2].
  destruct (IH _ (wf_set B (Z.of_nat px) (Z.of_nat py) (g (px, py)) HB)) as [I1 I2]; [rewrite D1, D2; exact Hl'|].
  assert (R : in_range B (Z.of_nat px) (Z.of_nat py) = true) by (apply in_range_spec; lia).
  split.
  - intros Hin. destruct (in_dec (fun a b : nat * nat => ltac:(repeat decide equality)) (x, y) l) as [Hl2|Hl2]; [auto|].
    rewrite I2 by exact Hl2. rewrite get_set by exact HB. rewrite R.
    destruct Hin as [E|Hin]; [|contradiction]. injection E as -> ->. rewrite !Z.eqb_refl. reflexivity.
  - intros Hn. rewrite I2 by (intros Hc; apply Hn; right; exact Hc). rewrite get_set by exact HB. rewrite R.
    destruct ((Z.of_nat px =? Z.of_nat x) && (Z.of_nat py =? Z.of_nat y)) eqn:Exy; [|reflexivity].
    exfalso. apply Hn. left. f_equal; lia.
Qed.
(** Setting every cell. *)
Lemma set_all_every g B B' : wf_buf B -> wf_buf B' -> bw B' = bw B -> bh B' = bh B ->
  (forall x y, (x < bw B)%nat -> (y < bh B)%nat -> get B' (Z.of_nat x) (Z.of_nat y) = g (x, y)) ->
  set_all g (coords (bw B) (bh B)) B = B'.
Proof.
  intros HB HB' Hw Hh Hg. destruct (set_all_wf g (coords (bw B) (bh B)) B HB) as (A1 & A2 & A3).
  apply buf_ext; auto; try congruence. intros x y Hx Hy. rewrite A2 in Hx. rewrite A3 in Hy.
  replace x with (Z.of_nat (Z.to_nat x)) by lia. replace y with (Z.of_nat (Z.to_nat y)) by lia.
  rewrite Hg by lia.
  apply (set_all_get g (Z.to_nat x) (Z.to_nat y) (coords (bw B) (bh B)) B HB).
  - apply Forall_forall. intros [px py] Hin. apply in_coords in Hin. exact Hin.
  - apply in_coords. lia.
Qed.

(* ---------- memory ---------- *)
Definition valid (m : mem) (b : hbuf) : Prop :=
  length (rows b) = hh b /\ NoDup (rows b) /\ Forall (fun a => (a < length m)%nat /\ length (nth a m []) = hw b) (rows b).
Definition keeps (R : list nat) (m m' : mem) : Prop :=
  (length m <= length m')%nat /\
  forall a, (a < length m)%nat -> length (nth a m' []) = length (nth a m []) /\ (~ In a R -> nth a m' [] = nth a m []).
Definition apart (b b' : hbuf) : Prop := forall a, In a (rows b) -> ~ In a (rows b').

Lemma keeps_refl R m : keeps R m m.
Proof. split; [lia|auto]. Qed.
Lemma keeps_trans R m1 m2 m3 : keeps R m1 m2 -> keeps R m2 m3 -> keeps R m1 m3.
Proof.
  intros [L1 K1] [L2 K2]. split; [lia|]. intros a Ha. destruct (K1 a Ha) as [E1 F1]. destruct (K2 a ltac:(lia)) as [E2 F2].
  split; [congruence|]. intros Hn. rewrite F2, F1; auto.
Qed.
Lemma keeps_weaken R R' m m' : (forall a, In a R -> In a R') -> keeps R m m' -> keeps R' m m'.
Proof. intros H [L K]. split; [exact L|]. intros a Ha. destruct (K a Ha). split; auto. Qed.
Lemma keeps_valid R m m' b : keeps R m m' -> valid m b -> valid m' b.
Proof.
  intros [L K] (V1 & V2 & V3). split; [exact V1|]. split; [exact V2|]. rewrite Forall_forall in *. intros a Ha.
  destruct (V3 a Ha) as [A1 A2]. destruct (K a A1) as [K1 _]. split; [lia|congruence].
Qed.
Lemma keeps_deref R m m' b : keeps R m m' -> valid m b -> (forall a, In a (rows b) -> ~ In a R) -> deref m' b = deref m b.
Proof.
  intros [L K] (V1 & V2 & V3) Hd. unfold deref. f_equal. apply map_ext_in. intros a Ha.
  rewrite Forall_forall in V3. apply K; [apply V3, Ha|apply Hd, Ha].
Qed.
Lemma deref_wf m b : valid m b -> wf_buf (deref m b).
Proof.
  intros (V1 & _ & V3). split; cbn; [rewrite map_length; exact V1|]. apply Forall_forall. intros r Hr.
  apply in_map_iff in Hr as (a & <- & Ha). rewrite Forall_forall in V3. apply V3, Ha.
Qed.

Lemma row_in b y : (y < length (rows b))%nat -> In (nth y (rows b) O) (rows b).
Proof. apply nth_In. Qed.
Lemma poke_keeps m b x y c : (y < length (rows b))%nat -> keeps (rows b) m (poke m b x y c).
Proof.
  intros Hy. unfold poke. split; [rewrite set_nth_length; lia|]. intros a Ha. rewrite nth_set_nth.
  destruct ((nth y (rows b) O =? a)%nat && (nth y (rows b) O <? length m)%nat) eqn:E1.
  - assert (a = nth y (rows b) O) by lia. subst a. split; [apply set_nth_length|]. intros Hn. exfalso. apply Hn, row_in, Hy.
  - auto.
Qed.
Lemma poke_deref m b x y c : valid m b -> (x < hw b)%nat -> (y < hh b)%nat ->
  deref (poke m b x y c) b = set (deref m b) (Z.of_nat x) (Z.of_nat y) c.
Proof.
  intros (V1 & V2 & V3) Hx Hy. unfold set.
  replace (in_range (deref m b) (Z.of_nat x) (Z.of_nat y)) with true by (symmetry; apply in_range_spec; cbn; lia).
  unfold deref at 1. cbn [deref bw bh cells]. f_equal. rewrite !Nat2Z.id.
  rewrite Forall_forall in V3. destruct (V3 _ (row_in b y ltac:(lia))) as [A1 A2].
  assert (N : nth y (map (fun a => nth a m []) (rows b)) [] = nth (nth y (rows b) O) m []).
  { apply (nth_mapped (fun a => nth a m []) (rows b) y [] O). lia. }
  rewrite N. apply nth_ext with (d := []) (d' := []); [rewrite set_nth_length, !map_length; reflexivity|].
  intros j Hj. rewrite map_length in Hj. rewrite nth_set_nth, map_length.
  rewrite (nth_mapped (fun a => nth a (poke m b x y c) []) (rows b) j [] O) by lia.
  unfold poke. rewrite nth_set_nth.
  destruct (Nat.eq_dec y j) as [->|Hne].
  - rewrite !Nat.eqb_refl. replace (nth j (rows b) O <? length m)%nat with true by lia. replace (j <? length (rows b))%nat with true by lia. reflexivity.
  - replace (y =? j)%nat with false by lia. cbn [andb].
    assert (Hd : nth y (rows b) O <> nth j (rows b) O).
    { intros He. apply Hne. rewrite NoDup_nth with (d := O) in V2. apply V2; lia. }
    replace (nth y (rows b) O =? nth j (rows b) O)%nat with false by lia. cbn [andb].
    rewrite (nth_mapped (fun a => nth a m []) (rows b) j [] O) by lia. reflexivity.
Qed.

(** Loops that write cells of one buffer. *)
Lemma loop_deref b (f : mem -> nat * nat -> cell) (g : nat * nat -> cell) l : forall m, valid m b ->
  Forall (fun p => (fst p < hw b)%nat /\ (snd p < hh b)%nat) l ->
  (forall m' p, keeps (rows b) m m' -> In p l -> f m' p = g p) ->
  let m' := fold_left (fun m p => poke m b (fst p) (snd p) (f m p)) l m in
  keeps (rows b) m m' /\ deref m' b = set_all g l (deref m b).
Proof.
  induction l as [|p l IH]; intros m V Hl Hf; [split; [apply keeps_refl|reflexivity]|].
  inversion Hl as [|? ? Hp Hl']; subst. cbn [fold_left].
  assert (K1 : keeps (rows b) m (poke m b (fst p) (snd p) (f m p))) by (apply poke_keeps; destruct V as (V1 & _); lia).
  destruct (IH (poke m b (fst p) (snd p) (f m p))) as [I1 I2].
  - eapply keeps_valid; eauto.
  - exact Hl'.
  - intros m' q K Hq. apply Hf; [eapply keeps_trans; eauto|right; exact Hq].
  - cbv zeta in *. split; [eapply keeps_trans; eauto|]. rewrite I2. cbn [set_all fold_left].
    rewrite poke_deref by (auto; lia). rewrite (Hf m p (keeps_refl _ _) (or_introl eq_refl)). reflexivity.
Qed.
Lemma coords_in b : Forall (fun p => (fst p < hw b)%nat /\ (snd p < hh b)%nat) (coords (hw b) (hh b)).
Proof. apply Forall_forall. intros [x y] Hin. apply in_coords in Hin. exact Hin. Qed.

Lemma get_fill_in b c x y : (x < bw b)%nat -> (y < bh b)%nat -> get (fill b c) (Z.of_nat x) (Z.of_nat y) = c.
Proof. intros. rewrite get_fill. replace (in_range b _ _) with true by (symmetry; apply in_range_spec; lia). reflexivity. Qed.
Lemma fill_ok m b c : valid m b -> keeps (rows b) m (h_fill m b c) /\ deref (h_fill m b c) b = fill (deref m b) c.
Proof.
  intros V. destruct (loop_deref b (fun _ _ => c) (fun _ => c) (coords (hw b) (hh b)) m V (coords_in b)) as [A1 A2]; [auto|].
  split; [exact A1|]. etransitivity; [exact A2|]. apply (set_all_every (fun _ => c) (deref m b)).
  - apply deref_wf, V. - apply wf_fill. - reflexivity. - reflexivity.
  - intros x y Hx Hy. apply get_fill_in; auto.
Qed.
Lemma clear_ok m b : valid m b -> keeps (rows b) m (h_clear m b) /\ deref (h_clear m b) b = clear_buf (deref m b).
Proof.
  intros V. destruct (loop_deref b (fun _ _ => empty_cell) (fun _ => empty_cell) (coords (hw b) (hh b)) m V (coords_in b)) as [A1 A2]; [auto|].
  split; [exact A1|]. etransitivity; [exact A2|]. apply (set_all_every (fun _ => empty_cell) (deref m b)).
  - apply deref_wf, V. - apply wf_clear. - cbn. lia. - cbn. lia.
  - intros x y Hx Hy. apply get_clear.
Qed.

(* ---------- new buffers ---------- *)
Lemma nth_app_new {A} (l l' : list A) i d : nth (length l + i) (l ++ l') d = nth i l' d.
Proof. rewrite app_nth2 by lia. f_equal. lia. Qed.
Lemma alloc_ok m w h m' k : alloc m w h = (m', k) ->
  keeps [] m m' /\ valid m' k /\ deref m' k = new_buffer w h /\ (forall a, In a (rows k) -> (length m <= a)%nat) /\
  hw k = Z.to_nat w /\ hh k = Z.to_nat h.
Proof.
  unfold alloc. intros E1. assert (Ew : Z.to_nat (if w <? 0 then 0 else w) = Z.to_nat w) by (destruct (w <? 0) eqn:?; lia).
  assert (Eh : Z.to_nat (if h <? 0 then 0 else h) = Z.to_nat h) by (destruct (h <? 0) eqn:?; lia).
  cbv zeta in E1. rewrite Ew, Eh in E1. injection E1 as <- <-.
  assert (Hnth : forall i, (i < Z.to_nat h)%nat -> nth (length m + i) (m ++ repeat (repeat empty_cell (Z.to_nat w)) (Z.to_nat h)) [] = repeat empty_cell (Z.to_nat w)).
  { intros i Hi. rewrite nth_app_new. apply nth_repeat_lt, Hi. }
  split; [|split; [|split; [|split; [|split; reflexivity]]]].
  - split; [rewrite app_length; lia|]. intros a Ha. rewrite app_nth1 by lia. auto.
  - split; [cbn; apply seq_length|]. split; [apply seq_NoDup|]. apply Forall_forall. cbn. intros a Ha. apply in_seq in Ha.
    rewrite app_length, repeat_length. split; [lia|]. replace a with (length m + (a - length m))%nat by lia.
    rewrite Hnth by lia. apply repeat_length.
  - unfold deref, new_buffer. cbn [hw hh rows]. f_equal; try lia.
    apply nth_ext with (d := []) (d' := []).
    + rewrite map_length, seq_length, repeat_length. lia.
    + intros i Hi. rewrite map_length, seq_length in Hi.
      rewrite (nth_mapped _ (seq (length m) (Z.to_nat h)) i [] O) by (rewrite seq_length; lia).
      rewrite seq_nth by lia. rewrite Hnth by lia.
      rewrite nth_repeat_lt by lia. f_equal; lia.
  - cbn. intros a Ha. apply in_seq in Ha. lia.
Qed.
Lemma clone_ok m b m' k : valid m b -> h_clone m b = (m', k) ->
  keeps [] m m' /\ valid m' k /\ deref m' k = deref m b /\ (forall a, In a (rows k) -> (length m <= a)%nat).
Proof.
  unfold h_clone. intros V E1. destruct (alloc m (Z.of_nat (hw b)) (Z.of_nat (hh b))) as [m1 k1] eqn:Ea.
  injection E1 as <- <-. destruct (alloc_ok _ _ _ _ _ Ea) as (A1 & A2 & A3 & A4 & A5 & A6).
  rewrite Nat2Z.id in A5, A6.
  assert (Hfr : forall a, In a (rows b) -> ~ In a (rows k1)).
  { intros a Ha Hc. apply A4 in Hc. destruct V as (_ & _ & V3). rewrite Forall_forall in V3. destruct (V3 a Ha). lia. }
  assert (Vb1 : valid m1 b) by (eapply keeps_valid; eauto).
  assert (Db1 : deref m1 b = deref m b) by (apply (keeps_deref [] m m1 b A1 V); auto).
  destruct (loop_deref k1 (fun m p => peek m b (fst p) (snd p)) (fun p => peek m1 b (fst p) (snd p)) (coords (hw b) (hh b)) m1) as [L1 L2].
  - exact A2.
  - rewrite <- A5, <- A6. apply coords_in.
  - intros m' [x y] K Hin. apply in_coords in Hin. unfold peek. cbn [fst snd]. f_equal.
    destruct K as [_ K]. destruct V as (V1 & V2 & V3). rewrite Forall_forall in V3.
    assert (Hr : In (nth y (rows b) O) (rows b)) by (apply row_in; lia).
    apply K; [|apply Hfr, Hr]. destruct Vb1 as (_ & _ & W3). rewrite Forall_forall in W3. apply W3, Hr.
  - cbv zeta in *. split; [|split; [|split]].
    + destruct A1 as [B1 B2]. destruct L1 as [C1 C2]. split; [lia|]. intros a Ha. destruct (B2 a Ha) as [B3 B4]. destruct (C2 a ltac:(lia)) as [C3 C4].
      split; [congruence|]. intros Hn. rewrite C4, B4; auto. intros Hc. apply A4 in Hc. lia.
    + eapply keeps_valid; eauto.
    + rewrite L2, A3, <- Db1.
      pose proof (set_all_every (fun p => peek m1 b (fst p) (snd p)) (new_buffer (Z.of_nat (hw b)) (Z.of_nat (hh b))) (deref m1 b)) as Q.
      assert (D1 : bw (new_buffer (Z.of_nat (hw b)) (Z.of_nat (hh b))) = hw b) by (cbn; lia).
      assert (D2 : bh (new_buffer (Z.of_nat (hw b)) (Z.of_nat (hh b))) = hh b) by (cbn; lia).
      rewrite D1, D2 in Q. apply Q; auto.
      * apply wf_new.
      * apply deref_wf, Vb1.
      * intros x y Hx Hy. unfold get. replace (in_range (deref m1 b) (Z.of_nat x) (Z.of_nat y)) with true by (symmetry; apply in_range_spec; cbn; lia).
        unfold cell_at, deref, peek. cbn [cells fst snd]. rewrite !Nat2Z.id. f_equal.
        destruct V as (V1 & _). rewrite (nth_mapped (fun a => nth a m1 []) (rows b) y [] O) by lia. reflexivity.
    + exact A4.
Qed.

(* ---------- drawing ---------- *)
Definition draw_val (B : buffer) (d : draw) : buffer :=
  match d with
  | DSet x y c => set B x y c
  | DString x y cl s => fst (set_string B x y cl s)
  | DLine y cl s => set_line B y cl s
  | DClear => clear_buf B
  | DFill c => fill B c
  end.
Lemma set_ok m b x y c : valid m b -> keeps (rows b) m (h_set m b x y c) /\ deref (h_set m b x y c) b = set (deref m b) x y c.
Proof.
  intros V. unfold h_set. destruct ((x <? 0) || (Z.of_nat (hw b) <=? x) || (y <? 0) || (Z.of_nat (hh b) <=? y)) eqn:E1.
  - split; [apply keeps_refl|]. unfold set. replace (in_range (deref m b) x y) with false; [reflexivity|].
    symmetry. unfold in_range. cbn [deref bw bh]. rewrite E1. reflexivity.
  - split.
    + apply poke_keeps. destruct V as (V1 & _). lia.
    + rewrite poke_deref by (auto; lia). f_equal; lia.
Qed.
Lemma clusters_ok b st cl : forall m x y n, valid m b ->
  keeps (rows b) m (fst (h_clusters m b x y cl st n)) /\
  deref (fst (h_clusters m b x y cl st n)) b = fst (set_clusters (deref m b) x y cl st n) /\
  snd (h_clusters m b x y cl st n) = snd (set_clusters (deref m b) x y cl st n).
Proof.
  induction cl as [|[ch w] cl IH]; intros m x y n V; cbn [h_clusters set_clusters].
  - split; [apply keeps_refl|auto].
  - change (bw (deref m b)) with (hw b). destruct (Z.of_nat (hw b) <=? x).
    + split; [apply keeps_refl|auto].
    + destruct (set_ok m b x y (Cell ch st w) V) as [K D].
      assert (V' : valid (h_set m b x y (Cell ch st w)) b) by (eapply keeps_valid; eauto).
      destruct (IH _ (x + w) y (n + w) V') as (I1 & I2 & I3). rewrite D in I2, I3.
      split; [eapply keeps_trans; eauto|]. split; assumption.
Qed.
Lemma string_ok m b x y cl st : valid m b ->
  keeps (rows b) m (fst (h_string m b x y cl st)) /\
  deref (fst (h_string m b x y cl st)) b = fst (set_string (deref m b) x y cl st) /\
  snd (h_string m b x y cl st) = snd (set_string (deref m b) x y cl st).
Proof.
  intros V. unfold h_string, set_string. change (bh (deref m b)) with (hh b).
  destruct ((y <? 0) || (Z.of_nat (hh b) <=? y) || (x <? 0)).
  - split; [apply keeps_refl|auto].
  - apply clusters_ok, V.
Qed.
Lemma blank_ok b y n : forall m x, valid m b ->
  keeps (rows b) m (h_blank m b x y n) /\ deref (h_blank m b x y n) b = blank_from (deref m b) x y n.
Proof.
  induction n as [|n IH]; intros m x V; cbn [h_blank blank_from].
  - split; [apply keeps_refl|auto].
  - destruct (set_ok m b x y empty_cell V) as [K D].
    destruct (IH (h_set m b x y empty_cell) (x + 1) (keeps_valid _ _ _ _ K V)) as [I1 I2]. rewrite D in I2.
    split; [eapply keeps_trans; eauto|exact I2].
Qed.
Lemma line_ok m b y cl st : valid m b -> keeps (rows b) m (h_line m b y cl st) /\ deref (h_line m b y cl st) b = set_line (deref m b) y cl st.
Proof.
  intros V. unfold h_line, set_line. change (bh (deref m b)) with (hh b).
  destruct ((y <? 0) || (Z.of_nat (hh b) <=? y)); [split; [apply keeps_refl|auto]|].
  destruct (string_ok m b 0 y cl st V) as (K & D & N).
  destruct (h_string m b 0 y cl st) as [m1 n1]. destruct (set_string (deref m b) 0 y cl st) as [B1 n2]. cbn [fst snd] in *. subst n2.
  change (bw (deref m b)) with (hw b).
  destruct (blank_ok b y (Z.to_nat (Z.of_nat (hw b) - n1)) m1 n1 (keeps_valid _ _ _ _ K V)) as [I1 I2]. rewrite D in I2.
  split; [eapply keeps_trans; eauto|exact I2].
Qed.
Lemma draw_ok m b d : valid m b -> keeps (rows b) m (h_draw m b d) /\ deref (h_draw m b d) b = draw_val (deref m b) d.
Proof.
  intros V. destruct d as [x y c|x y cl s|y cl s| |c]; cbn [h_draw draw_val].
  - apply set_ok, V.
  - destruct (string_ok m b x y cl s V) as (A1 & A2 & _). auto.
  - apply line_ok, V.
  - apply clear_ok, V.
  - apply fill_ok, V.
Qed.
