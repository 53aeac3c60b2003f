(** Colours of package style. *)
From Verif Require Import Prelude Utf8 Text SyModel.

Lemma closest_spec : forall ds i best d, 
  (closest ds i best d = best /\ forall x, In x ds -> d <= x) \/
  (exists n x, closest ds i best d = i + Z.of_nat n /\ nth_error ds n = Some x /\ x < d /\ (forall y, In y ds -> x <= y) /\ (forall m y, (m < n)%nat -> nth_error ds m = Some y -> x < y)).
Proof.
  induction ds as [|a r IH]; intros i best d; cbn [closest]; [left; split; auto; intros x []|].
  destruct (a <? d) eqn:E.
  - right. destruct (IH (i + 1) i a) as [[H1 H2]|(n & x & H1 & H2 & H3 & H4 & H5)].
    + exists 0%nat, a. rewrite H1. repeat split; auto; try lia. intros y [->|Y]; [lia|auto].
    + exists (S n), x. rewrite H1. repeat split; auto; try lia.
      * intros y [->|Y]; [lia|auto].
      * intros [|m] y L Hy; cbn [nth_error] in Hy; [apply some_inj in Hy; lia|]. apply (H5 m y); [lia|auto].
  - destruct (IH (i + 1) best d) as [[H1 H2]|(n & x & H1 & H2 & H3 & H4 & H5)].
    + left. split; auto. intros x [->|X]; [lia|auto].
    + right. exists (S n), x. rewrite H1. repeat split; auto; try lia.
      * intros y [->|Y]; [lia|auto].
      * intros [|m] y L Hy; cbn [nth_error] in Hy; [apply some_inj in Hy; lia|]. apply (H5 m y); [lia|auto].
Qed.
Lemma ansi16_ok : Forall color_ok ansi16.
Proof. unfold ansi16. repeat constructor; cbn; lia. Qed.
Lemma dist_bound a b : color_ok a -> color_ok b -> 0 <= dist a b <= 195075.
Proof. intros (A1 & A2 & A3) (B1 & B2 & B3). unfold dist. assert (SQ : forall x y, 0 <= x <= 255 -> 0 <= y <= 255 -> 0 <= (x - y) * (x - y) <= 65025) by (intros; split; [apply Z.square_nonneg|]; assert (- 255 <= x - y <= 255) by lia; nia). pose proof (SQ _ _ A1 B1). pose proof (SQ _ _ A2 B2). pose proof (SQ _ _ A3 B3). lia. Qed.

(* ---------- C49 ---------- *)
(** The palette entry chosen for sixteen colours is a nearest one, and the first of the nearest. *)
Theorem C49_sixteen_nearest : forall c, color_ok c -> exists k p, to16 c = Z.of_nat k /\ nth_error ansi16 k = Some p /\
  forall j q, nth_error ansi16 j = Some q -> dist c p <= dist c q /\ ((j < k)%nat -> dist c p < dist c q).
Proof.
  intros c C. unfold to16. destruct (closest_spec (map (dist c) ansi16) 0 0 1000000) as [[H1 H2]|(n & x & H1 & H2 & H3 & H4 & H5)].
  - exfalso. specialize (H2 (dist c black) ltac:(left; reflexivity)). pose proof (dist_bound c black C ltac:(repeat split; cbn; lia)). lia.
  - rewrite nth_error_map in H2. destruct (nth_error ansi16 n) as [p|] eqn:E; [|discriminate]. cbn in H2. apply some_inj in H2. exists n, p. split; [lia|]. split; auto.
    intros j q Q. split; [subst x; apply H4; apply in_map; eapply nth_error_In; eauto|]. intros L. rewrite <- H2 in H5. rewrite H2 in *. subst x. apply (H5 j); auto. rewrite nth_error_map, Q. reflexivity.
Qed.
Lemma cube_index_spec v : 0 <= v <= 255 -> 0 <= cube_index v <= 5 /\ forall i, 0 <= i <= 5 -> Z.abs (v - level (cube_index v)) <= Z.abs (v - level i).
Proof.
  intros V. unfold cube_index. destruct (closest_spec (map (fun l => Z.abs (v - l)) levels) 0 0 255) as [[H1 H2]|(n & x & H1 & H2 & H3 & H4 & H5)].
  - pose proof (H2 (Z.abs (v - 0)) ltac:(left; reflexivity)). pose proof (H2 (Z.abs (v - 95)) ltac:(right; left; reflexivity)). lia.
  - rewrite H1. rewrite nth_error_map in H2. destruct (nth_error levels n) as [l|] eqn:E; [|discriminate]. cbn in H2. apply some_inj in H2. subst x.
    assert (N : (n < 6)%nat) by (change 6%nat with (length levels); apply nth_error_Some; congruence). split; [lia|]. intros i I. unfold level. replace (Z.to_nat (0 + Z.of_nat n)) with n by lia. rewrite (nth_error_nth levels n 0 E).
    apply H4. apply in_map_iff. exists (nth (Z.to_nat i) levels 0). split; auto. apply nth_In. cbn. lia.
Qed.
Lemma from256_cube a b c : 0 <= a <= 5 -> 0 <= b <= 5 -> 0 <= c <= 5 -> from256 (16 + 36 * a + 6 * b + c) = SyModel.Rgb (level a) (level b) (level c).
Proof.
  intros A B C. unfold from256. replace (16 + 36 * a + 6 * b + c <? 16) with false by lia. replace (16 + 36 * a + 6 * b + c <=? 231) with true by lia. cbv zeta.
  replace (16 + 36 * a + 6 * b + c - 16) with (36 * a + 6 * b + c) by lia. f_equal; f_equal; lia.
Qed.
(** For a colour that is not close to grey the 256-colour code is the nearest entry of the colour cube. *)
Theorem C49_cube_nearest : forall c, color_ok c -> grayish c = false -> 16 <= to256 c <= 231 /\
  forall code, 16 <= code <= 231 -> dist c (from256 (to256 c)) <= dist c (from256 code).
Proof.
  intros c (C1 & C2 & C3) G. unfold to256. rewrite G. destruct (cube_index_spec (cr c) C1) as [A1 A2]. destruct (cube_index_spec (cg c) C2) as [B1 B2]. destruct (cube_index_spec (cb c) C3) as [D1 D2].
  split; [lia|]. intros code K. replace code with (16 + 36 * ((code - 16) / 36) + 6 * ((code - 16) / 6 mod 6) + (code - 16) mod 6) by lia. rewrite !from256_cube by lia.
  specialize (A2 ((code - 16) / 36) ltac:(lia)). specialize (B2 ((code - 16) / 6 mod 6) ltac:(lia)). specialize (D2 ((code - 16) mod 6) ltac:(lia)). unfold dist. cbn [cr cg cb].
  assert (SQ : forall x y, Z.abs x <= Z.abs y -> x * x <= y * y) by (intros x y H; rewrite <- (Z.abs_square x), <- (Z.abs_square y); nia).
  apply SQ in A2. apply SQ in B2. apply SQ in D2. lia.
Qed.
(** Codes are always in range, so the emitted numbers are the ones meant. *)
Theorem C49_codes_in_range : forall c, color_ok c -> 0 <= to16 c <= 15 /\ 16 <= to256 c <= 255.
Proof.
  intros c C. split.
  - destruct (C49_sixteen_nearest c C) as (k & p & -> & K & _). assert (k < 16)%nat by (change 16%nat with (length ansi16); apply nth_error_Some; congruence). lia.
  - destruct (grayish c) eqn:G; [|pose proof (C49_cube_nearest c C G); lia]. unfold to256. rewrite G. destruct C as (C1 & C2 & C3). cbv zeta. set (g := (cr c + cg c + cb c) / 3). destruct (g <? 8) eqn:?; [lia|]. destruct (238 <? g) eqn:?; lia.
Qed.
Example C49_case : color_ok (Rgb 200 30 90) /\ grayish (Rgb 200 30 90) = false /\ to256 (Rgb 200 30 90) = 161 /\ to16 (Rgb 200 30 90) = 5.
Proof. repeat split; cbn; lia. Qed.

(* ---------- C104: greys ---------- *)
(** The nearest of all 240 fixed entries is not chosen for greys: the ramp index is rounded down, so for every grey whose
    distance above its ramp step is 6 to 9 the next step is nearer. *)
Theorem C104_grey_nearest_refuted : forall v, 8 <= v <= 228 -> 6 <= (v - 8) mod 10 -> let c := Rgb v v v in
  232 <= to256 c + 1 <= 255 /\ dist c (from256 (to256 c + 1)) < dist c (from256 (to256 c)).
Proof.
  intros v V M c. assert (E : to256 c = (v - 8) / 10 + 232).
  { unfold to256, grayish, c. cbn [cr cg cb]. replace ((v + v + v) / 3) with v by lia. rewrite Z.sub_diag. cbn [Z.abs Z.leb Z.compare andb]. cbv zeta. replace (v <? 8) with false by lia. replace (238 <? v) with false by lia. reflexivity. }
  rewrite E. split; [lia|]. unfold from256. replace ((v - 8) / 10 + 232 + 1 <? 16) with false by lia. replace ((v - 8) / 10 + 232 <? 16) with false by lia. replace ((v - 8) / 10 + 232 + 1 <=? 231) with false by lia. replace ((v - 8) / 10 + 232 <=? 231) with false by lia.
  unfold dist, c. cbn [cr cg cb]. set (q := (v - 8) / 10) in *. assert (v = 10 * q + 8 + (v - 8) mod 10) by lia. set (m := (v - 8) mod 10) in *. clearbody q m. assert (m <= 9 \/ 9 < m) by lia. subst v. nia.
Qed.
Example C104_case : to256 (Rgb 17 17 17) = 232 /\ from256 232 = Rgb 8 8 8 /\ from256 233 = Rgb 18 18 18.
Proof. repeat split. Qed.
(** The entry shown is within 16 of the grey in each channel (within 9 between the ends of the ramp), and is itself a grey. *)
Theorem C192_grey_close : forall v, 0 <= v <= 255 -> exists g, from256 (to256 (Rgb v v v)) = Rgb g g g /\ Z.abs (v - g) <= 16 /\ (8 <= v <= 238 -> 0 <= v - g <= 9).
Proof.
  intros v V. unfold to256, grayish. cbn [cr cg cb]. replace ((v + v + v) / 3) with v by lia. rewrite Z.sub_diag. cbn [Z.abs Z.leb Z.compare andb]. cbv zeta.
  destruct (v <? 8) eqn:E1; [exists 0; split; [reflexivity|lia]|]. destruct (238 <? v) eqn:E2; [exists 255; split; [reflexivity|lia]|].
  exists (8 + ((v - 8) / 10 + 232 - 232) * 10). unfold from256. replace ((v - 8) / 10 + 232 <? 16) with false by lia. replace ((v - 8) / 10 + 232 <=? 231) with false by lia. split; [reflexivity|lia].
Qed.

(* ---------- C105: palette colours ---------- *)
(** A colour taken from the palette by number is not always shown as that entry: grey 59 becomes 240, red 1 becomes 88. *)
Theorem C105_palette_roundtrip_refuted : to256 (from256 59) = 240 /\ from256 240 <> from256 59 /\ to256 (from256 1) = 88 /\ from256 88 <> from256 1.
Proof. repeat split; discriminate. Qed.
Definition seqZ (a : Z) (n : nat) : list Z := map (fun i => a + Z.of_nat i) (seq 0 n).
Lemma seqZ_In a n v : a <= v < a + Z.of_nat n -> In v (seqZ a n).
Proof. intros H. apply in_map_iff. exists (Z.to_nat (v - a)). split; [lia|]. apply in_seq. lia. Qed.
(** On a 16-colour terminal all sixteen come back; on a 256-colour terminal all fixed entries but the four greys of the cube do. *)
Theorem C192_palette : (forall code, 0 <= code <= 15 -> to16 (from256 code) = code) /\
  (forall code, 16 <= code <= 255 -> ~ In code [59; 102; 145; 188] -> to256 (from256 code) = code).
Proof.
  split.
  - assert (A : forallb (fun k => to16 (from256 k) =? k) (seqZ 0 16) = true) by (vm_compute; reflexivity). intros k K. rewrite forallb_forall in A. specialize (A k (seqZ_In 0 16 k ltac:(lia))). lia.
  - assert (A : forallb (fun k => existsb (Z.eqb k) [59; 102; 145; 188] || (to256 (from256 k) =? k)) (seqZ 16 240) = true) by (vm_compute; reflexivity). intros k K N. rewrite forallb_forall in A. specialize (A k (seqZ_In 16 240 k ltac:(lia))).
    apply orb_prop in A as [A|A]; [|lia]. apply existsb_exists in A as (x & X & Y). exfalso. apply N. replace k with x by lia. exact X.
Qed.

(* ---------- C106: border colours ---------- *)
(** A border gets other codes than text of the same colour: not the nearest ones, not even for colours the palette has. *)
Theorem C106_border_nearest_refuted :
  (border16 (Rgb 255 0 0) = 1 /\ nth_error ansi16 9 = Some (Rgb 255 0 0)) /\ (border16 (Rgb 128 128 128) = 0 /\ nth_error ansi16 8 = Some (Rgb 128 128 128)) /\
  (forall v, 43 <= v <= 47 -> let c := Rgb v 0 0 in dist c (from256 (to256 c)) < dist c (from256 (border256 c))) /\
  to256 (Rgb 43 0 0) = 16 /\ border256 (Rgb 43 0 0) = 52.
Proof.
  split; [split; reflexivity|]. split; [split; reflexivity|]. split; [|split; reflexivity].
  intros v V. assert (A : forallb (fun v => dist (Rgb v 0 0) (from256 (to256 (Rgb v 0 0))) <? dist (Rgb v 0 0) (from256 (border256 (Rgb v 0 0)))) (seqZ 43 5) = true) by (vm_compute; reflexivity).
  rewrite forallb_forall in A. specialize (A v (seqZ_In 43 5 v ltac:(lia))). cbv zeta. lia.
Qed.
(** The codes are in range; the true colour is exact; in 16 colours each channel is on exactly when it is above 128. *)
Theorem C192_border_range : forall c, color_ok c -> 0 <= border16 c <= 15 /\ 16 <= border256 c <= 255 /\
  (Z.odd (border16 c) = true <-> 128 < cr c) /\ (Z.odd (border16 c / 2) = true <-> 128 < cg c) /\ (Z.odd (border16 c / 4) = true <-> 128 < cb c).
Proof.
  intros c (C1 & C2 & C3). split; [|split].
  - unfold border16. destruct (128 <? cr c), (128 <? cg c), (128 <? cb c), (128 <? _); lia.
  - unfold border256. destruct (_ && _); [|lia]. destruct (cr c <? 8) eqn:?; [lia|]. destruct (247 <? cr c) eqn:?; lia.
  - unfold border16. assert (E : forall v, (128 < v) <-> (128 <? v) = true) by (intros; lia). rewrite !E. destruct (128 <? cr c), (128 <? cg c), (128 <? cb c), (128 <? _); cbn; tauto.
Qed.

(* ---------- C52: hex notation ---------- *)
Definition is_hex (b : Z) : Prop := 48 <= b <= 57 \/ 97 <= b <= 102 \/ 65 <= b <= 70.
Definition digit_value (b v : Z) : Prop := (48 <= b <= 57 /\ v = b - 48) \/ (97 <= b <= 102 /\ v = b - 97 + 10) \/ (65 <= b <= 70 /\ v = b - 65 + 10).
Lemma hexval_spec b v : hexval b = Some v <-> digit_value b v.
Proof.
  unfold hexval, digit_value. destruct (_ && _) eqn:E1; [split; [intros H; apply some_inj in H; lia|intros; f_equal; lia]|]. destruct ((97 <=? b) && _) eqn:E2; [split; [intros H; apply some_inj in H; lia|intros; f_equal; lia]|].
  destruct ((65 <=? b) && _) eqn:E3; [split; [intros H; apply some_inj in H; lia|intros; f_equal; lia]|]. split; [discriminate|lia].
Qed.
Lemma hexval_none b : hexval b = None <-> ~ is_hex b.
Proof. unfold hexval, is_hex. destruct (_ && _) eqn:E1; [split; [discriminate|lia]|]. destruct ((97 <=? b) && _) eqn:E2; [split; [discriminate|lia]|]. destruct ((65 <=? b) && _) eqn:E3; [split; [discriminate|lia]|]. split; auto. lia. Qed.
(** Writing a colour as hex and reading it back gives the colour. *)
Theorem C52_roundtrip : forall c, color_ok c -> parse_hex (hex_of c) = Some c.
Proof.
  intros [r g b] (C1 & C2 & C3). cbn [cr cg cb] in *. unfold hex_of, hex2. cbn [app cr cg cb parse_hex]. unfold hexbyte.
  assert (D : forall v, 0 <= v < 16 -> hexval (hexdigit v) = Some v) by (intros v V; unfold hexdigit; apply hexval_spec; unfold digit_value; destruct (v <? 10) eqn:?; lia).
  rewrite !D by lia. f_equal. f_equal; lia.
Qed.
(** Every string is either six (or three, each standing for itself twice) hex digits of either case after at most one '#', and then
    means the colour with those channel values, or it is rejected. *)
Theorem C52_parse : forall s col, parse_hex s = Some col <->
  exists t, (s = 35 :: t \/ (s = t /\ (forall u, s <> 35 :: u))) /\
    ((exists a b c d e f va vb vc vd ve vf, t = [a; b; c; d; e; f] /\ digit_value a va /\ digit_value b vb /\ digit_value c vc /\ digit_value d vd /\ digit_value e ve /\ digit_value f vf /\ col = Rgb (16 * va + vb) (16 * vc + vd) (16 * ve + vf)) \/
     (exists a b c va vb vc, t = [a; b; c] /\ digit_value a va /\ digit_value b vb /\ digit_value c vc /\ col = Rgb (17 * va) (17 * vb) (17 * vc))).
Proof.
  intros s col.
  set (strip := match s with 35 :: t => t | _ => s end).
  assert (ST : s = 35 :: strip \/ (s = strip /\ forall u, s <> 35 :: u)).
  { unfold strip. destruct s as [|x t]; [right; split; auto; discriminate|]. destruct (Z.eq_dec x 35) as [->|N]; [left; reflexivity|]. right. assert ((match x with 35 => t | _ => x :: t end) = x :: t) as -> by (destruct x as [|p|p]; auto; do 6 (destruct p; auto); congruence). split; auto. intros u Q. congruence. }
  assert (UNI : forall t, (s = 35 :: t \/ (s = t /\ forall u, s <> 35 :: u)) -> t = strip).
  { intros t [H|[H H']]; destruct ST as [S1|[S1 S2]]; try congruence; exfalso; (eapply S2 + eapply H'); eauto. }
  assert (P : parse_hex s = match (match strip with [a; b; c] => [a; a; b; b; c; c] | _ => strip end) with [a; b; c; d; e; f] => match hexbyte a b, hexbyte c d, hexbyte e f with Some r, Some g, Some bl => Some (Rgb r g bl) | _, _, _ => None end | _ => None end) by reflexivity.
  rewrite P. clear P. clearbody strip. unfold hexbyte. split.
  - intros H. exists strip. split; auto. clear ST UNI.
    destruct strip as [|a [|b [|c [|d [|e [|f [|g r]]]]]]]; try discriminate.
    + right. destruct (hexval a) as [va|] eqn:Ea; [|discriminate]. destruct (hexval b) as [vb|] eqn:Eb; [|discriminate]. destruct (hexval c) as [vc|] eqn:Ec; [|discriminate]. apply some_inj in H. apply hexval_spec in Ea, Eb, Ec. exists a, b, c, va, vb, vc. repeat split; auto. subst col. f_equal; lia.
    + left. destruct (hexval a) as [va|] eqn:Ea; [|discriminate]. destruct (hexval b) as [vb|] eqn:Eb; [|discriminate]. destruct (hexval c) as [vc|] eqn:Ec; [|discriminate].
      destruct (hexval d) as [vd|] eqn:Ed; [|discriminate]. destruct (hexval e) as [ve|] eqn:Ee; [|discriminate]. destruct (hexval f) as [vf|] eqn:Ef; [|discriminate]. apply some_inj in H. apply hexval_spec in Ea, Eb, Ec, Ed, Ee, Ef. exists a, b, c, d, e, f, va, vb, vc, vd, ve, vf. repeat split; auto.
  - intros (t & T1 & T2). apply UNI in T1. subst t. destruct T2 as [(a & b & c & d & e & f & va & vb & vc & vd & ve & vf & -> & A & B & C & D & E & F & ->)|(a & b & c & va & vb & vc & -> & A & B & C & ->)].
    + apply hexval_spec in A, B, C, D, E, F. rewrite A, B, C, D, E, F. reflexivity.
    + apply hexval_spec in A, B, C. rewrite A, B, C. f_equal. f_equal; lia.
Qed.
Example C52_case : parse_hex [35; 102; 56; 48] = Some (Rgb 255 136 0) /\ hex_of (Rgb 255 136 0) = [35; 70; 70; 56; 56; 48; 48] /\ parse_hex [35; 35; 49; 50] = None.
Proof. repeat split. Qed.

Print Assumptions C49_sixteen_nearest. Print Assumptions C49_cube_nearest. Print Assumptions C49_codes_in_range. Print Assumptions C104_grey_nearest_refuted.
Print Assumptions C192_grey_close. Print Assumptions C105_palette_roundtrip_refuted. Print Assumptions C192_palette. Print Assumptions C106_border_nearest_refuted.
Print Assumptions C192_border_range. Print Assumptions C52_roundtrip. Print Assumptions C52_parse.
