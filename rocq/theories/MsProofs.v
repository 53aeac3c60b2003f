(** Lemmas about the mouse model. *)
From Verif Require Import Prelude MsModel MsSpec.

Lemma atoi_dec n : 0 <= n <= 9223372036854775807 -> atoi (dec n) = Some n.
Proof.
  intros H. destruct (dec_spec n ltac:(lia)) as (N & D & _). pose proof (dec_undec n ltac:(lia)) as V. unfold atoi.
  destruct (dec n) as [|c t] eqn:E; [congruence|]. assert (C : is_digit c = true) by (cbn [forallb] in D; apply andb_prop in D; tauto).
  assert (C1 : (43 =? c) = false /\ (45 =? c) = false) by (unfold is_digit in C; lia).
  assert (P : (match c :: t with 43 :: t => (false, t) | 45 :: t => (true, t) | _ => (false, c :: t) end) = (false, c :: t)).
  { unfold is_digit in C. assert (48 <= c <= 57) as R by lia. assert (c = 48 \/ c = 49 \/ c = 50 \/ c = 51 \/ c = 52 \/ c = 53 \/ c = 54 \/ c = 55 \/ c = 56 \/ c = 57) as K by lia.
    repeat (destruct K as [K|K]; [subst; reflexivity|]). subst; reflexivity. }
  rewrite P. cbn beta iota. rewrite D, V. replace ((-9223372036854775808 <=? n) && (n <=? 9223372036854775807)) with true by lia. reflexivity.
Qed.
Lemma split_one d : contains 59 d = false -> split_semi d = [d].
Proof. induction d as [|c t IH]; intros H; auto. cbn [contains existsb] in H. apply orb_false_iff in H as [H1 H2]. cbn [split_semi]. rewrite H1. rewrite IH; auto. Qed.
Lemma split_cons d r : contains 59 d = false -> split_semi (d ++ 59 :: r) = d :: split_semi r.
Proof. induction d as [|c t IH]; intros H; auto. cbn [contains existsb] in H. apply orb_false_iff in H as [H1 H2]. cbn [app split_semi]. rewrite H1, IH; auto. Qed.
Lemma digits_nosemi c d : is_digit c = false -> forallb is_digit d = true -> contains c d = false.
Proof.
  intros C. induction d as [|x t IH]; intros H; auto. cbn [forallb] in H. apply andb_prop in H as [H1 H2]. unfold contains. cbn [existsb]. fold (contains c t). rewrite IH; auto.
  rewrite orb_false_r. apply Z.eqb_neq. intros ->. congruence.
Qed.
Lemma dec_digits n : 0 <= n -> forallb is_digit (dec n) = true.
Proof. intros H. apply (dec_spec n H). Qed.
Lemma split3 a b c : 0 <= a -> 0 <= b -> 0 <= c -> split_semi (dec a ++ [59] ++ dec b ++ [59] ++ dec c) = [dec a; dec b; dec c].
Proof.
  intros A B C. cbn [app]. rewrite split_cons by (apply digits_nosemi; auto using dec_digits). rewrite split_cons by (apply digits_nosemi; auto using dec_digits).
  rewrite split_one by (apply digits_nosemi; auto using dec_digits). reflexivity.
Qed.
Lemma has_suffix_app c l x : has_suffix c (l ++ [x]) = (x =? c).
Proof. unfold has_suffix. rewrite rev_app_distr. reflexivity. Qed.
Lemma trim_suffix_app c l x : trim_suffix c (l ++ [x]) = if x =? c then l else l ++ [x].
Proof. unfold trim_suffix. rewrite rev_app_distr. cbn [rev app trim_prefix]. destruct (x =? c); cbn [rev]; rewrite rev_involutive; auto. Qed.
Lemma trim_suffix_no c l : has_suffix c l = false -> trim_suffix c l = l.
Proof. unfold has_suffix, trim_suffix. intros H. destruct (rev l) as [|x t] eqn:E; [rewrite <- (rev_involutive l), E; reflexivity|]. cbn [has_prefix] in H. cbn [trim_prefix]. rewrite H, <- E. apply rev_involutive. Qed.
Lemma digit_ends c n : is_digit c = false -> 0 <= n -> forall l, has_suffix c (l ++ dec n) = false.
Proof.
  intros C N l. destruct (dec_spec n N) as (NE & D & _). destruct (exists_last NE) as (d & x & E). rewrite E, app_assoc, has_suffix_app. rewrite E, forallb_app in D.
  apply andb_prop in D as [_ D]. cbn [forallb] in D. apply Z.eqb_neq. intros ->. rewrite andb_true_r in D. congruence.
Qed.
(** Reading a three-number report body. *)
Lemma sgr_body now a b c l : 0 <= a < 1000 -> 0 <= b < 2000000000 -> 0 <= c < 2000000000 -> l = 77 \/ l = 109 ->
  parse_raw now ([27; 91; 60] ++ dec a ++ [59] ++ dec b ++ [59] ++ dec c ++ [l]) =
  Some (Event (if is_wheel (fst (decode_button a)) then EScroll else if l =? 77 then EPress else ERelease) (fst (decode_button a)) (Pos (b - 1) (c - 1)) (snd (decode_button a)) now).
Proof.
  intros A B C L. unfold parse_raw.
  set (body := dec a ++ [59] ++ dec b ++ [59] ++ dec c).
  replace ([27; 91; 60] ++ dec a ++ [59] ++ dec b ++ [59] ++ dec c ++ [l]) with (27 :: 91 :: (60 :: body) ++ [l]) by (unfold body; cbn [app]; rewrite <- !app_assoc; cbn [app]; rewrite <- !app_assoc; reflexivity).
  cbn [trim_prefix Z.eqb Pos.eqb]. change (has_prefix 60 ((60 :: body) ++ [l])) with true. cbn [app]. change (60 :: body ++ [l]) with ((60 :: body) ++ [l]).
  rewrite has_suffix_app. rewrite (trim_suffix_app 77).
  assert (S2 : trim_suffix 109 (if l =? 77 then 60 :: body else (60 :: body) ++ [l]) = 60 :: body).
  { destruct L; subst l; cbn [Z.eqb Pos.eqb]; [|rewrite trim_suffix_app; reflexivity]. apply trim_suffix_no. unfold body.
    replace (60 :: dec a ++ [59] ++ dec b ++ [59] ++ dec c) with ((60 :: dec a ++ [59] ++ dec b ++ [59]) ++ dec c) by (cbn [app]; rewrite <- !app_assoc; cbn [app]; rewrite <- !app_assoc; reflexivity).
    apply digit_ends; auto; lia. }
  rewrite S2. unfold sgr_parse. change (trim_prefix 60 (60 :: body)) with body. unfold body. rewrite split3 by lia. rewrite !atoi_dec by lia.
  destruct (decode_button a) as [bt md]. reflexivity.
Qed.
Lemma urxvt_body now a b c : 0 <= a < 1000 -> 0 <= b < 2000000000 -> 0 <= c < 2000000000 ->
  parse_raw now ([27; 91] ++ dec a ++ [59] ++ dec b ++ [59] ++ dec c ++ [77]) =
  Some (Event (if is_wheel (fst (decode_button a)) then EScroll else EPress) (fst (decode_button a)) (Pos (b - 1) (c - 1)) (snd (decode_button a)) now).
Proof.
  intros A B C. unfold parse_raw.
  set (body := dec a ++ [59] ++ dec b ++ [59] ++ dec c).
  replace ([27; 91] ++ dec a ++ [59] ++ dec b ++ [59] ++ dec c ++ [77]) with (27 :: 91 :: body ++ [77]) by (unfold body; cbn [app]; rewrite <- !app_assoc; cbn [app]; rewrite <- !app_assoc; reflexivity).
  cbn [trim_prefix Z.eqb Pos.eqb].
  assert (P : has_prefix 60 (body ++ [77]) = false /\ has_prefix 77 (body ++ [77]) = false /\ contains 59 (body ++ [77]) = true).
  { unfold body. destruct (dec_spec a ltac:(lia)) as (NE & D & _). destruct (dec a) as [|x t]; [congruence|]. cbn [forallb] in D. apply andb_prop in D as [D _]. unfold is_digit in D. cbn [app has_prefix].
    split; [lia|]. split; [lia|]. unfold contains. rewrite existsb_exists. exists 59. split; auto. right. rewrite <- app_assoc. apply in_or_app. right. left. auto. }
  destruct P as (P1 & P2 & P3). rewrite P1, P2, P3, has_suffix_app, trim_suffix_app. cbn [Z.eqb Pos.eqb andb]. unfold urxvt_parse, body. rewrite split3 by lia. rewrite !atoi_dec by lia.
  destruct (decode_button a) as [bt md]. reflexivity.
Qed.
Lemma mods_flags s c a : has_shift (new_mods s c a) = s /\ has_ctrl (new_mods s c a) = c /\ has_alt (new_mods s c a) = a.
Proof. destruct s, c, a; repeat split; reflexivity. Qed.
Lemma distance_eq p q : distance p q = cells_apart p q.
Proof. unfold distance, cells_apart. destruct (px p - px q <? 0) eqn:?, (py p - py q <? 0) eqn:?; lia. Qed.
Lemma decode_report (b : button) (s a c m : bool) :
  decode_button (xbase b + ((if s then 4 else 0) + (if a then 8 else 0) + (if c then 16 else 0)) + (if m then 32 else 0)) =
  (if m then BNone else b, new_mods s c a).
Proof. destruct b, s, a, c, m; reflexivity. Qed.
Lemma decode_report0 b (s a c : bool) : decode_button (xbase b + ((if s then 4 else 0) + (if a then 8 else 0) + (if c then 16 else 0)) + 0) = (b, new_mods s c a).
Proof. exact (decode_report b s a c false). Qed.
Lemma decode_report1 b (s a c : bool) : decode_button (xbase b + ((if s then 4 else 0) + (if a then 8 else 0) + (if c then 16 else 0)) + 32) = (BNone, new_mods s c a).
Proof. exact (decode_report b s a c true). Qed.
Lemma parse_types now s e : parse_raw now s = Some e -> etyp e = EPress \/ etyp e = ERelease \/ etyp e = EScroll.
Proof.
  unfold parse_raw, sgr_parse, x10_parse, urxvt_parse. intros H.
  repeat match type of H with
  | (if ?b then _ else _) = _ => destruct b
  | match ?x with _ => _ end = _ => destruct x
  | (let '(a, b) := ?x in _) = _ => destruct x
  | None = Some _ => discriminate
  | Some _ = Some _ => apply some_inj in H; subst e; cbn [etyp]
  end; auto; try discriminate;
  repeat match goal with |- context [if ?b then _ else _] => destruct b end; auto.
Qed.
