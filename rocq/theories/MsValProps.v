From Verif Require Import Prelude MsModel MsSpec MsProofs.

(* ---------- C184: positions, boxes, modifiers ---------- *)
(** DistanceTo counts the horizontal and vertical steps: it is zero only between equal positions, the same both ways, and never
    longer by a detour; IsWithinTolerance and IsAt compare it. *)
Theorem C184_distance : forall p q r t, distance p q = Z.abs (px p - px q) + Z.abs (py p - py q) /\ (distance p q = 0 <-> p = q) /\ distance p q = distance q p /\ distance p r <= distance p q + distance q r /\
  (pos_eq p q = true <-> p = q) /\ (within_tolerance p q t = true <-> Z.abs (px p - px q) + Z.abs (py p - py q) <= t) /\
  (forall e, event_is_at e q t = true <-> Z.abs (px (epos e) - px q) + Z.abs (py (epos e) - py q) <= t).
Proof.
  intros [px1 py1] [px2 py2] [px3 py3] t. unfold event_is_at, within_tolerance. rewrite !distance_eq. unfold cells_apart, pos_eq. cbn [px py].
  split; [reflexivity|]. split; [split; [intros H; f_equal; lia|intros H; injection H as -> ->; lia]|]. split; [lia|]. split; [lia|].
  split; [split; [intros H; f_equal; lia|intros H; injection H as -> ->; lia]|]. split; [lia|]. intros e. rewrite distance_eq. unfold cells_apart. cbn [px py]. lia.
Qed.
(** NewBoundingBox keeps a non-negative size and takes a negative one for zero; Contains is being within the half-open ranges;
    a box is empty exactly when no position is in it; Area counts its positions. *)
Definition cells_of (b : box) : list pos := flat_map (fun i => map (fun j => Pos (bx b + Z.of_nat i) (by_ b + Z.of_nat j)) (seq 0 (Z.to_nat (bh b)))) (seq 0 (Z.to_nat (bw b))).
Lemma cells_of_len b : 0 <= bw b -> 0 <= bh b -> Z.of_nat (length (cells_of b)) = box_area b.
Proof.
  intros W H. unfold cells_of, box_area. assert (G : forall n k, length (flat_map (fun i => map (fun j => Pos (bx b + Z.of_nat i) (by_ b + Z.of_nat j)) (seq 0 (Z.to_nat (bh b)))) (seq k n)) = (n * Z.to_nat (bh b))%nat).
  { induction n as [|n IH]; intros k; [reflexivity|]. cbn [seq flat_map]. rewrite app_length, map_length, seq_length, IH. lia. }
  rewrite G. lia.
Qed.
Lemma cells_of_in b p : In p (cells_of b) <-> box_contains b p = true.
Proof.
  unfold cells_of, box_contains. rewrite in_flat_map. split.
  - intros (i & Ii & I). apply in_map_iff in I as (j & <- & Ij). apply in_seq in Ii, Ij. cbn [px py]. lia.
  - intros H. exists (Z.to_nat (px p - bx b)). split; [apply in_seq; lia|]. apply in_map_iff. exists (Z.to_nat (py p - by_ b)). split; [destruct p as [x y]; cbn [px py] in *; f_equal; lia|apply in_seq; lia].
Qed.
Lemma cells_of_nodup b : NoDup (cells_of b).
Proof.
  unfold cells_of. assert (G : forall n k, NoDup (flat_map (fun i => map (fun j => Pos (bx b + Z.of_nat i) (by_ b + Z.of_nat j)) (seq 0 (Z.to_nat (bh b)))) (seq k n))).
  { induction n as [|n IH]; intros k; [constructor|]. cbn [seq flat_map].
    assert (A : NoDup (map (fun j => Pos (bx b + Z.of_nat k) (by_ b + Z.of_nat j)) (seq 0 (Z.to_nat (bh b))))).
    { apply FinFun.Injective_map_NoDup; [intros x y E; injection E as E; lia|apply seq_NoDup]. }
    assert (D : forall p, In p (map (fun j => Pos (bx b + Z.of_nat k) (by_ b + Z.of_nat j)) (seq 0 (Z.to_nat (bh b)))) -> ~ In p (flat_map (fun i => map (fun j => Pos (bx b + Z.of_nat i) (by_ b + Z.of_nat j)) (seq 0 (Z.to_nat (bh b)))) (seq (S k) n))).
    { intros p I J. apply in_map_iff in I as (j & <- & _). apply in_flat_map in J as (i & Ii & J). apply in_seq in Ii. apply in_map_iff in J as (j' & E & _). injection E as E1 E2. lia. }
    revert A D. generalize (map (fun j => Pos (bx b + Z.of_nat k) (by_ b + Z.of_nat j)) (seq 0 (Z.to_nat (bh b)))). intros l A D. induction A as [|x l N A IHl]; [apply IH|]. cbn [app]. constructor.
    - rewrite in_app_iff. intros [I|I]; [tauto|]. apply (D x); [left; reflexivity|exact I].
    - apply IHl. intros p I. apply D. now right. }
  apply G.
Qed.
Theorem C184_boxes : forall x y w h, let b := new_box x y w h in
  bx b = x /\ by_ b = y /\ bw b = Z.max 0 w /\ bh b = Z.max 0 h /\
  (forall p, box_contains b p = true <-> x <= px p < x + w /\ y <= py p < y + h) /\
  (box_empty b = true <-> forall p, box_contains b p = false) /\
  (exists ps, NoDup ps /\ (forall p, In p ps <-> box_contains b p = true) /\ Z.of_nat (length ps) = box_area b) /\
  (forall c, box_eq b c = true <-> b = c).
Proof.
  intros x y w h. unfold new_box. cbv zeta. set (w' := if w <? 0 then 0 else w). set (h' := if h <? 0 then 0 else h).
  assert (W : w' = Z.max 0 w) by (subst w'; destruct (w <? 0) eqn:?; lia). assert (Hh : h' = Z.max 0 h) by (subst h'; destruct (h <? 0) eqn:?; lia). cbn [bx by_ bw bh].
  split; [reflexivity|]. split; [reflexivity|]. split; [exact W|]. split; [exact Hh|]. unfold box_contains, box_empty, box_eq. cbn [bx by_ bw bh]. split; [|split; [|split]].
  - intros p. lia.
  - split; [intros E p; lia|]. intros E. specialize (E (Pos x y)). cbn [px py] in E. lia.
  - exists (cells_of (Box x y w' h')). split; [apply cells_of_nodup|]. split; [intros p; exact (cells_of_in (Box x y w' h') p)|]. apply cells_of_len; cbn [bw bh]; lia.
  - intros [x2 y2 w2 h2]. cbn [bx by_ bw bh]. split; [intros E; f_equal; lia|intros E; injection E as -> -> -> ->; lia].
Qed.
(** NewModifiers records exactly the flags given; two are equal exactly if their flags are; String names them, distinct sets differently. *)
Theorem C184_modifiers : forall s c a, let m := new_mods s c a in
  has_shift m = s /\ has_ctrl m = c /\ has_alt m = a /\
  (forall s' c' a', mods_eq m (new_mods s' c' a') = true <-> s = s' /\ c = c' /\ a = a') /\
  (forall s' c' a', mods_string m = mods_string (new_mods s' c' a') -> s = s' /\ c = c' /\ a = a').
Proof.
  intros s c a m. subst m. destruct (mods_flags s c a) as (A & B & D). split; [exact A|]. split; [exact B|]. split; [exact D|]. split.
  - intros s' c' a'. split; [destruct s, c, a, s', c', a'; intros E; try discriminate E; auto|intros (-> & -> & ->); apply Z.eqb_refl].
  - intros s' c' a' E. destruct s, c, a, s', c', a'; try discriminate E; auto.
Qed.
(** A button is one of left, middle, right, or a wheel direction, or none; an event is at most one of click, drag, scroll, hover. *)
Theorem C184_kinds : forall b t,
  (is_button b = true <-> b = BLeft \/ b = BMiddle \/ b = BRight) /\ (is_wheel b = true <-> b = BWheelUp \/ b = BWheelDown) /\
  (type_is_click t = true <-> t = EClick \/ t = EDoubleClick \/ t = ETripleClick) /\ (type_is_hover t = true <-> t = EHoverEnter \/ t = EHoverLeave \/ t = EHoverMove).
Proof. intros b t. split; [destruct b; cbn; intuition discriminate|]. split; [destruct b; cbn; intuition discriminate|]. split; destruct t; cbn; intuition discriminate. Qed.
Example C184_ex : distance (Pos 1 2) (Pos 4 0) = 5 /\ box_contains (new_box 2 3 4 1) (Pos 5 3) = true /\ box_area (new_box 2 3 4 2) = 8 /\ mods_string (new_mods true false true) = s_shift ++ 43 :: s_alt.
Proof. repeat split. Qed.

(* ---------- C185: what is decoded at all ---------- *)
(** A decimal number with an optional sign, within 64 bits. *)
Definition value_of (d : list Z) : Z := fold_left (fun v c => v * 10 + (c - 48)) d 0.
Definition number (s : list Z) (v : Z) : Prop :=
  (exists d, d <> [] /\ Forall (fun c => 48 <= c <= 57) d /\ ((s = d \/ s = 43 :: d) /\ v = value_of d \/ s = 45 :: d /\ v = - value_of d)) /\ -9223372036854775808 <= v <= 9223372036854775807.
(** What a code says: bits 2, 3, 4 are Shift, Alt and Ctrl; bits 0, 1, 5, 6 the button. *)
Definition code_says (code : Z) (b : button) (m : Z) : Prop :=
  has_shift m = Z.odd (code / 4) /\ has_alt m = Z.odd (code / 8) /\ has_ctrl m = Z.odd (code / 16) /\
  b = match (code / 32) mod 4, code mod 4 with 0, 0 => BLeft | 0, 1 => BMiddle | 0, 2 => BRight | 2, 0 => BWheelUp | 2, 1 => BWheelDown | _, _ => BNone end.
(** The event a code and a one-based position stand for. *)
Definition means (now code x y : Z) (t : etype) (e : event) : Prop :=
  code_says code (ebtn e) (emods e) /\ epos e = Pos (x - 1) (y - 1) /\ etime e = now /\ etyp e = if is_wheel (ebtn e) then EScroll else t.
Definition semi (a b c : list Z) : list Z := a ++ 59 :: b ++ 59 :: c.

Lemma atoi_number s v : atoi s = Some v <-> number s v.
Proof.
  assert (DG : forall d, forallb is_digit d = true <-> Forall (fun c => 48 <= c <= 57) d).
  { intros d. rewrite forallb_forall, Forall_forall. unfold is_digit. split; intros H x I; specialize (H x I); lia. }
  unfold number. split.
  - unfold atoi. intros E.
    assert (S : exists neg d, (let '(neg, d) := match s with 43 :: t => (false, t) | 45 :: t => (true, t) | _ => (false, s) end in (neg, d)) = (neg, d) /\
      ((s = d \/ s = 43 :: d) /\ neg = false \/ s = 45 :: d /\ neg = true)).
    { destruct s as [|c t]; [exists false, []; auto|]. destruct (Z.eq_dec c 43) as [->|N1]; [exists false, t; auto|]. destruct (Z.eq_dec c 45) as [->|N2]; [exists true, t; auto|].
      exists false, (c :: t). split; [|auto]. destruct c as [|p|p]; auto. do 6 (destruct p as [p|p|]; auto); congruence. }
    destruct S as (neg & d & S1 & S2). destruct (match s with 43 :: t => (false, t) | 45 :: t => (true, t) | _ => (false, s) end) as [neg' d']. injection S1 as -> ->.
    destruct d as [|x d]; [discriminate|]. destruct (forallb is_digit (x :: d)) eqn:F; [|discriminate]. cbv zeta in E. destruct (_ && _) eqn:R in E; [|discriminate]. apply some_inj in E. subst v.
    split; [|lia]. exists (x :: d). split; [discriminate|]. split; [now apply DG|]. destruct S2 as [[S2 ->]|[S2 ->]]; [left; split; auto|right; split; auto].
  - intros ((d & N & F & S) & R). apply DG in F. unfold atoi. change (undec_acc 0 d) with (value_of d) in *.
    assert (NS : forall c t, d = c :: t -> c <> 43 /\ c <> 45) by (intros c t ->; cbn [forallb] in F; unfold is_digit in F; apply andb_true_iff in F as [F _]; lia).
    assert (FIN : forall neg : bool, v = (if neg then - value_of d else value_of d) -> match d with [] => None | _ => if forallb is_digit d then let v := undec_acc 0 d in let v := if neg then - v else v in if (-9223372036854775808 <=? v) && (v <=? 9223372036854775807) then Some v else None else None end = Some v).
    { intros neg V. destruct d as [|c t]; [congruence|]. rewrite F. cbv zeta. change (undec_acc 0 (c :: t)) with (value_of (c :: t)). rewrite <- V. replace (_ && _) with true by lia. reflexivity. }
    destruct S as [[[S|S] V]|[S V]]; subst s; [|exact (FIN false V)|exact (FIN true V)].
    assert (M : match d with 43 :: t => (false, t) | 45 :: t => (true, t) | _ => (false, d) end = (false, d)).
    { destruct d as [|c t]; [reflexivity|]. destruct (NS c t eq_refl) as [N1 N2]. destruct c as [|p|p]; auto. do 6 (destruct p as [p|p|]; auto); congruence. }
    rewrite M. exact (FIN false V).
Qed.
Lemma number_chars s v : number s v -> s <> [] /\ Forall (fun c => 43 <= c <= 57 /\ c <> 59) s.
Proof.
  intros ((d & N & F & S) & _). assert (F' : Forall (fun c => 43 <= c <= 57 /\ c <> 59) d) by (eapply Forall_impl; [|exact F]; cbn; intros; lia).
  destruct S as [[[ -> | -> ] _]|[ -> _]]; (split; [auto; discriminate|]); auto; constructor; auto; lia.
Qed.
Lemma number_nosemi s v : number s v -> contains 59 s = false.
Proof. intros H. apply number_chars in H as [_ F]. unfold contains. destruct (existsb (fun x => x =? 59) s) eqn:E; auto. apply existsb_exists in E as (x & I & E). rewrite Forall_forall in F. specialize (F x I). lia. Qed.
Lemma split_semi_inv s a b c : split_semi s = [a; b; c] -> s = semi a b c.
Proof.
  assert (J : forall s : list Z, s = (fix jn (l : list (list Z)) : list Z := match l with [] => [] | [x] => x | x :: r => x ++ 59 :: jn r end) (split_semi s) /\ split_semi s <> []).
  { induction s0 as [|x t [IH1 IH2]]; [split; [reflexivity|discriminate]|]. cbn [split_semi]. destruct (x =? 59) eqn:E.
    - apply Z.eqb_eq in E. subst x. split; [|discriminate]. destruct (split_semi t) as [|h r]; [congruence|]. cbn [app]. now rewrite IH1 at 1.
    - destruct (split_semi t) as [|h r]; [congruence|]. split; [|discriminate]. destruct r; cbn [app]; now rewrite IH1 at 1. }
  intros E. destruct (J s) as [K _]. rewrite E in K. exact K.
Qed.
Lemma split_semi_three a b c : contains 59 a = false -> contains 59 b = false -> contains 59 c = false -> split_semi (semi a b c) = [a; b; c].
Proof. intros A B C. unfold semi. rewrite split_cons, split_cons, split_one; auto. Qed.
Lemma decode_says code : code_says code (fst (decode_button code)) (snd (decode_button code)).
Proof.
  assert (L : forall k, 0 <= k < 128 -> Z.land code k = Z.land (code mod 128) k).
  { intros k K. change 128 with (2 ^ 7). rewrite <- Z.land_ones by lia. rewrite <- Z.land_assoc. f_equal. rewrite Z.land_comm, Z.land_ones by lia. change (2 ^ 7) with 128. rewrite Z.mod_small; lia. }
  assert (O : forall k, Z.of_nat 0 <= k <= 6 -> Z.odd (code / 2 ^ k) = Z.odd ((code mod 128) / 2 ^ k)).
  { intros k K. rewrite <- !Z.shiftr_div_pow2 by lia. rewrite <- !Z.testbit_odd. change 128 with (2 ^ 7). now rewrite Z.mod_pow2_bits_low by lia. }
  assert (D : decode_button code = decode_button (code mod 128)) by (unfold decode_button; rewrite (L 4), (L 8), (L 16), (L 99) by lia; reflexivity).
  unfold code_says. rewrite D. change 4 with (2 ^ 2) at 1. change 8 with (2 ^ 3) at 1. change 16 with (2 ^ 4) at 1. rewrite !O by lia.
  replace (code / 32 mod 4) with (code mod 128 / 32 mod 4).
  2: { pose proof (Z.div_mod code 128 ltac:(lia)) as Q. pose proof (Z.mod_pos_bound code 128 ltac:(lia)). replace (code / 32) with (code mod 128 / 32 + (code / 128) * 4); [now rewrite Z_mod_plus_full|].
       clear - Q H. Z.div_mod_to_equations. lia. }
  replace (code mod 4) with (code mod 128 mod 4) by (change 128 with (4 * 32); rewrite Z.rem_mul_r by lia; rewrite Z.mul_comm, Z_mod_plus_full; apply Z.mod_mod; lia).
  pose proof (Z.mod_pos_bound code 128 ltac:(lia)) as B. generalize dependent (code mod 128). clear. intros c _ _ _ B.
  assert (G : forallb (fun c => let '(b, m) := decode_button c in Bool.eqb (has_shift m) (Z.odd (c / 2 ^ 2)) && Bool.eqb (has_alt m) (Z.odd (c / 2 ^ 3)) && Bool.eqb (has_ctrl m) (Z.odd (c / 2 ^ 4)) &&
    button_eqb b (match (c / 32) mod 4, c mod 4 with 0, 0 => BLeft | 0, 1 => BMiddle | 0, 2 => BRight | 2, 0 => BWheelUp | 2, 1 => BWheelDown | _, _ => BNone end)) (map Z.of_nat (seq 0 128)) = true) by (vm_compute; reflexivity).
  rewrite forallb_forall in G. specialize (G c). assert (I : In c (map Z.of_nat (seq 0 128))) by (apply in_map_iff; exists (Z.to_nat c); split; [lia|apply in_seq; lia]). specialize (G I).
  destruct (decode_button c) as [b m]. cbn [fst snd]. apply andb_true_iff in G as [G G4]. apply andb_true_iff in G as [G G3]. apply andb_true_iff in G as [G1 G2].
  apply Bool.eqb_prop in G1, G2, G3. repeat split; auto. clear - G4. revert G4. destruct b; generalize (match (c / 32) mod 4, c mod 4 with 0, 0 => BLeft | 0, 1 => BMiddle | 0, 2 => BRight | 2, 0 => BWheelUp | 2, 1 => BWheelDown | _, _ => BNone end); intros b'; destruct b'; cbn; congruence.
Qed.
Lemma decode_means now code x y t : means now code x y t (let '(btn, mods) := decode_button code in Event (if is_wheel btn then EScroll else t) btn (Pos (x - 1) (y - 1)) mods now).
Proof. pose proof (decode_says code) as D. destruct (decode_button code) as [b m]. cbn [fst snd] in D. unfold means. cbn [ebtn emods epos etime etyp]. auto. Qed.
Lemma trim_opt c s : s = (if has_prefix c s then [c] else []) ++ trim_prefix c s.
Proof. destruct s as [|x t]; [reflexivity|]. cbn [has_prefix trim_prefix]. destruct (x =? c) eqn:E; [apply Z.eqb_eq in E; now subst|reflexivity]. Qed.
Lemma trim_suf c s : s = trim_suffix c s ++ (if has_suffix c s then [c] else []).
Proof. destruct s as [|x t] using rev_ind; [reflexivity|]. rewrite trim_suffix_app, has_suffix_app. destruct (x =? c) eqn:E; [apply Z.eqb_eq in E; now subst|now rewrite app_nil_r]. Qed.

(** ParseSequence decodes, after an optional ESC and an optional "[": "<" and three numbers, ended by M, by m, by mM or by nothing
    (SGR: a press if it ends with M, else a release); "M" and three bytes (X10); three numbers ended by M (urxvt). *)
Theorem C185_decodes : forall now s e, parse_raw now s = Some e ->
  exists pre body code x y, In pre [[]; [27]; [91]; [27; 91]] /\ s = pre ++ body /\
  ((exists a b c suf, number a code /\ number b x /\ number c y /\ In suf [[]; [77]; [109]; [109; 77]] /\ body = 60 :: semi a b c ++ suf /\ means now code x y (if has_suffix 77 suf then EPress else ERelease) e) \/
   (body = [77; code + 32; x + 32; y + 32] /\ means now code x y EPress e) \/
   (exists a b c, number a code /\ number b x /\ number c y /\ body = semi a b c ++ [77] /\ means now code x y EPress e)).
Proof.
  intros now s e. unfold parse_raw. set (body := trim_prefix 91 (trim_prefix 27 s)). set (pre := (if has_prefix 27 s then [27] else []) ++ (if has_prefix 91 (trim_prefix 27 s) then [91] else [])).
  assert (Sp : s = pre ++ body) by (subst pre body; rewrite <- app_assoc, <- trim_opt; apply trim_opt).
  assert (Ip : In pre [[]; [27]; [91]; [27; 91]]) by (subst pre; destruct (has_prefix 27 s), (has_prefix 91 (trim_prefix 27 s)); cbn; auto). clearbody body pre.
  destruct (has_prefix 60 body) eqn:P60; [|destruct (has_prefix 77 body) eqn:P77; [|destruct (contains 59 body && has_suffix 77 body) eqn:PU; [|discriminate]]].
  - unfold sgr_parse. set (i := trim_suffix 109 (trim_suffix 77 body)). destruct (split_semi (trim_prefix 60 i)) as [|a [|b [|c [|? ?]]]] eqn:SS; try discriminate. apply split_semi_inv in SS.
    destruct (atoi a) as [code|] eqn:A; [|discriminate]. destruct (atoi b) as [x|] eqn:B; [|discriminate]. destruct (atoi c) as [y|] eqn:C; [|discriminate]. apply atoi_number in A, B, C.
    intros E. exists pre, body, code, x, y. split; [exact Ip|]. split; [exact Sp|]. left. exists a, b, c.
    exists ((if has_suffix 109 (trim_suffix 77 body) then [109] else []) ++ (if has_suffix 77 body then [77] else [])).
    split; [exact A|]. split; [exact B|]. split; [exact C|]. split; [destruct (has_suffix 109 _), (has_suffix 77 body); cbn; auto|].
    assert (Bd : body = i ++ (if has_suffix 109 (trim_suffix 77 body) then [109] else []) ++ (if has_suffix 77 body then [77] else [])) by (subst i; rewrite app_assoc, <- trim_suf; apply trim_suf).
    assert (I60 : has_prefix 60 i = true).
    { destruct i as [|z i']; [|rewrite Bd in P60; exact P60]. exfalso. cbn [app] in Bd. rewrite Bd in P60. destruct (has_suffix 109 _), (has_suffix 77 body); discriminate P60. }
    split. { rewrite (trim_opt 60 i), I60, SS in Bd. exact Bd. }
    assert (HS : has_suffix 77 ((if has_suffix 109 (trim_suffix 77 body) then [109] else []) ++ (if has_suffix 77 body then [77] else [])) = has_suffix 77 body) by (destruct (has_suffix 109 _), (has_suffix 77 body); reflexivity).
    rewrite HS. pose proof (decode_means now code x y (if has_suffix 77 body then EPress else ERelease)) as M. destruct (decode_button code) as [btn mods]. apply some_inj in E. now rewrite <- E.
  - unfold x10_parse. destruct (trim_prefix 77 body) as [|a [|b [|c [|? ?]]]] eqn:T; try discriminate. intros E.
    exists pre, body, (a - 32), (b - 32), (c - 32). split; [exact Ip|]. split; [exact Sp|]. right. left. split.
    + rewrite (trim_opt 77 body), P77, T. cbn [app]. repeat f_equal; lia.
    + pose proof (decode_means now (a - 32) (b - 32) (c - 32) EPress) as M. destruct (decode_button (a - 32)) as [btn mods]. apply some_inj in E. rewrite <- E.
      replace (b - 32 - 1) with (b - 33) in M by lia. replace (c - 32 - 1) with (c - 33) in M by lia. exact M.
  - unfold urxvt_parse. destruct (split_semi (trim_suffix 77 body)) as [|a [|b [|c [|? ?]]]] eqn:SS; try discriminate. apply split_semi_inv in SS.
    destruct (atoi a) as [code|] eqn:A; [|discriminate]. destruct (atoi b) as [x|] eqn:B; [|discriminate]. destruct (atoi c) as [y|] eqn:C; [|discriminate]. apply atoi_number in A, B, C.
    intros E. apply andb_true_iff in PU as [_ PU]. exists pre, body, code, x, y. split; [exact Ip|]. split; [exact Sp|]. right. right. exists a, b, c.
    split; [exact A|]. split; [exact B|]. split; [exact C|]. split; [rewrite (trim_suf 77 body), PU, SS; reflexivity|].
    pose proof (decode_means now code x y EPress) as M. destruct (decode_button code) as [btn mods]. apply some_inj in E. now rewrite <- E.
Qed.
(** Everything of these shapes is decoded. *)
Lemma semi_last a b c vc suf : number c vc -> exists l z, semi a b c = l ++ [z] /\ 43 <= z <= 57 /\ semi a b c ++ suf = l ++ z :: suf.
Proof.
  intros C. apply number_chars in C as [N F]. destruct (exists_last N) as (d & z & ->). apply Forall_app in F as [_ F]. apply Forall_inv in F. exists (a ++ 59 :: b ++ 59 :: d), z. unfold semi.
  split; [rewrite <- !app_assoc; cbn [app]; rewrite <- !app_assoc; reflexivity|]. split; [lia|]. rewrite <- !app_assoc. cbn [app]. rewrite <- !app_assoc. cbn [app]. rewrite <- !app_assoc. reflexivity.
Qed.
Lemma strip_pre pre body : In pre [[]; [27]; [91]; [27; 91]] -> (forall c r, body = c :: r -> c <> 27 /\ c <> 91) -> trim_prefix 91 (trim_prefix 27 (pre ++ body)) = body.
Proof.
  intros I H. assert (T : forall k, k = 27 \/ k = 91 -> trim_prefix k body = body).
  { intros k K. destruct body as [|c r]; [reflexivity|]. destruct (H c r eq_refl). cbn [trim_prefix]. replace (c =? k) with false by lia. reflexivity. }
  destruct I as [<-|[<-|[<-|[<-|[]]]]]; cbn [app trim_prefix Z.eqb Pos.eqb]; rewrite ?T by auto; rewrite ?T by auto; reflexivity.
Qed.
Theorem C185_decodes_all : forall now pre a b c code x y, In pre [[]; [27]; [91]; [27; 91]] -> number a code -> number b x -> number c y ->
  (forall suf, In suf [[]; [77]; [109]; [109; 77]] -> parse_raw now (pre ++ 60 :: semi a b c ++ suf) <> None) /\
  parse_raw now (pre ++ semi a b c ++ [77]) <> None /\ (forall d1 d2 d3, parse_raw now (pre ++ [77; d1; d2; d3]) <> None).
Proof.
  intros now pre a b c code x y Ip A B C. assert (SP : split_semi (semi a b c) = [a; b; c]) by (apply split_semi_three; eapply number_nosemi; eassumption).
  pose proof (proj2 (atoi_number _ _) A) as A1. pose proof (proj2 (atoi_number _ _) B) as B1. pose proof (proj2 (atoi_number _ _) C) as C1. split; [|split].
  - intros suf Is. unfold parse_raw. rewrite strip_pre by (auto; intros c0 r E; injection E as <- _; lia). cbn [has_prefix Z.eqb Pos.eqb].
    assert (TS : trim_suffix 109 (trim_suffix 77 (60 :: semi a b c ++ suf)) = 60 :: semi a b c).
    { destruct (semi_last a b c y suf C) as (l & z & E1 & Rz & E2). rewrite E2, E1.
      assert (X : forall (l1 : list Z) k, trim_suffix k (l1 ++ [z]) = if z =? k then l1 else l1 ++ [z]) by (intros; apply trim_suffix_app).
      destruct Is as [<-|[<-|[<-|[<-|[]]]]].
      - change (60 :: l ++ [z]) with ((60 :: l) ++ [z]). rewrite X. replace (z =? 77) with false by lia. rewrite X. replace (z =? 109) with false by lia. reflexivity.
      - replace (60 :: l ++ [z; 77]) with ((60 :: l ++ [z]) ++ [77]) by (cbn [app]; now rewrite <- app_assoc). rewrite trim_suffix_app. cbn [Z.eqb Pos.eqb]. change (60 :: l ++ [z]) with ((60 :: l) ++ [z]). rewrite X. replace (z =? 109) with false by lia. reflexivity.
      - replace (60 :: l ++ [z; 109]) with ((60 :: l ++ [z]) ++ [109]) by (cbn [app]; now rewrite <- app_assoc). rewrite trim_suffix_app. cbn [Z.eqb Pos.eqb]. rewrite trim_suffix_app. reflexivity.
      - replace (60 :: l ++ [z; 109; 77]) with (((60 :: l ++ [z]) ++ [109]) ++ [77]) by (cbn [app]; now rewrite <- !app_assoc). rewrite trim_suffix_app. cbn [Z.eqb Pos.eqb]. rewrite trim_suffix_app. reflexivity. }
    rewrite TS. unfold sgr_parse. cbn [trim_prefix Z.eqb Pos.eqb]. rewrite SP, A1, B1, C1. destruct (decode_button code); discriminate.
  - destruct (number_chars a code A) as [Na Fa]. destruct a as [|a0 ar]; [congruence|]. apply Forall_inv in Fa.
    unfold parse_raw. rewrite strip_pre by (auto; intros c0 r E; unfold semi in E; cbn [app] in E; injection E as <- _; lia).
    assert (HP : forall k, k = 60 \/ k = 77 -> has_prefix k (semi (a0 :: ar) b c ++ [77]) = false) by (intros k K; unfold semi; cbn [app has_prefix]; lia).
    rewrite !HP by auto. rewrite has_suffix_app. replace (contains 59 (semi (a0 :: ar) b c ++ [77])) with true.
    2: { symmetry. unfold contains. apply existsb_exists. exists 59. split; [|reflexivity]. unfold semi. rewrite !in_app_iff. left. right. left. reflexivity. }
    cbn [andb Z.eqb Pos.eqb]. rewrite trim_suffix_app. cbn [Z.eqb Pos.eqb]. unfold urxvt_parse. rewrite SP, A1, B1, C1. destruct (decode_button code); discriminate.
  - intros d1 d2 d3. unfold parse_raw. rewrite strip_pre by (auto; intros c0 r E; injection E as <- _; lia). cbn [has_prefix trim_prefix Z.eqb Pos.eqb x10_parse]. destruct (decode_button (d1 - 32)); discriminate.
Qed.
(** A sequence that is not decoded gives an error and leaves the handler as it was; one that is goes through the event processor. *)
Theorem C185_errors_change_nothing : forall p now s, (parse_raw now s = None -> parse_sequence p now s = (p, None)) /\ (forall e, parse_raw now s = Some e -> parse_sequence p now s = (fst (process p e), Some (snd (process p e)))).
Proof. intros p now s. unfold parse_sequence. split; [now intros ->|]. intros e ->. destruct (process p e); reflexivity. Qed.
Example C185_ex : number [43; 49; 50] 12 /\ number [45; 55] (-7) /\ ~ (exists v, number [] v).
Proof.
  split; [split; [|lia]; exists [49; 50]; split; [discriminate|]; split; [repeat constructor; lia|left; auto]|]. split; [split; [|lia]; exists [55]; split; [discriminate|]; split; [repeat constructor; lia|right; auto]|].
  intros (v & N). apply number_chars in N as [N _]. congruence.
Qed.
(* ---------- C186 ---------- *)
(** A report cut short is taken for a release somewhere else: ESC [ < 0 ; 12 ; 3 of a press at row 35. *)
Theorem C186_truncated_refuted : forall now, exists e, parse_raw now ([27; 91; 60; 48; 59; 49; 50; 59; 51]) = Some e /\ etyp e = ERelease /\ epos e = Pos 11 2.
Proof. intros now. eexists. split; [reflexivity|]. split; reflexivity. Qed.
(** Positions off the screen: column and row 0, negative numbers, and X10 bytes below 33 give negative positions. *)
Theorem C186_negative_positions_refuted : forall now,
  (exists e, parse_raw now [27; 91; 60; 48; 59; 48; 59; 45; 53; 77] = Some e /\ epos e = Pos (-1) (-6)) /\ (exists e, parse_raw now [27; 91; 77; 32; 0; 0] = Some e /\ epos e = Pos (-33) (-33)).
Proof. intros now. split; eexists; split; reflexivity. Qed.
(** Input that is no mouse report at all (no ESC [) is decoded. *)
Theorem C186_plain_text_refuted : forall now, exists e, parse_raw now [49; 59; 50; 59; 51; 77] = Some e /\ etyp e = EPress.
Proof. intros now. eexists. split; reflexivity. Qed.

Print Assumptions C184_distance. Print Assumptions C184_boxes. Print Assumptions C184_modifiers. Print Assumptions C184_kinds.
Print Assumptions C185_decodes. Print Assumptions C185_decodes_all. Print Assumptions C185_errors_change_nothing. Print Assumptions C186_truncated_refuted.
Print Assumptions C186_negative_positions_refuted. Print Assumptions C186_plain_text_refuted.
