From Verif Require Import Prelude Utf8 KeysModel KeysSpec.

(* ---------- C08 ---------- *)
Lemma parse1_spec b k : parse1 b = Some k <-> byte_key b k.
Proof.
  unfold parse1. split.
  - destruct ((b =? 13) || (b =? 10)) eqn:E1.
    { intros H; injection H as <-. assert (b = 13 \/ b = 10) as [-> | ->] by lia; constructor. }
    destruct (b =? 127) eqn:E2. { intros H; injection H as <-. assert (b = 127) as -> by lia; constructor. }
    destruct (b =? 8) eqn:E3. { intros H; injection H as <-. assert (b = 8) as -> by lia; constructor. }
    destruct (b =? 9) eqn:E4. { intros H; injection H as <-. assert (b = 9) as -> by lia; constructor. }
    destruct (b =? 27) eqn:E5. { intros H; injection H as <-. assert (b = 27) as -> by lia; constructor. }
    destruct (b =? 32) eqn:E6. { intros H; injection H as <-. assert (b = 32) as -> by lia; constructor. }
    destruct ((1 <=? b) && (b <=? 26) && _ && _ && _ && _) eqn:E7.
    { intros H; apply some_inj in H; subst k. replace (97 + b - 1) with (96 + b) by lia.
      apply BK_ctrl; [lia|]. cbn [In]. intros [H|[H|[H|[H|[]]]]]; lia. }
    destruct ((32 <=? b) && (b <=? 126)) eqn:E8; [|discriminate].
    intros H; injection H as <-. constructor. lia.
  - intros H; inversion H; subst; try reflexivity.
    + assert (b <> 8 /\ b <> 9 /\ b <> 10 /\ b <> 13).
      { cbn in H1. repeat split; intros ->; apply H1; tauto. }
      replace ((b =? 13) || (b =? 10)) with false by lia.
      replace (b =? 127) with false by lia. replace (b =? 8) with false by lia.
      replace (b =? 9) with false by lia. replace (b =? 27) with false by lia.
      replace (b =? 32) with false by lia.
      replace (_ && _ && _ && _ && _ && _) with true by lia. unfold ctrl_key. f_equal. f_equal. lia.
    + replace ((b =? 13) || (b =? 10)) with false by lia.
      destruct (b =? 127) eqn:E; [lia|].
      replace (b =? 8) with false by lia.
      replace (b =? 9) with false by lia. replace (b =? 27) with false by lia.
      replace (b =? 32) with false by lia.
      replace (_ && _ && _ && _ && _ && _) with false by lia.
      replace ((32 <=? b) && (b <=? 126)) with true by lia. reflexivity.
Qed.

Lemma orelse_some {A} (a b : option A) x : orelse a b = Some x <-> a = Some x \/ (a = None /\ b = Some x).
Proof. destruct a; cbn; intuition congruence. Qed.

Ltac pick_in := cbn; repeat (first [ left; reflexivity | right ]).

Lemma parse_tilde_in d k : parse_tilde d = Some k -> In (d, k) csi_keys.
Proof.
  unfold parse_tilde. intros H.
  repeat match type of H with
  | (if list_eqb d ?l then _ else _) = _ =>
      destruct (list_eqb d l) eqn:?;
      [ match goal with E : list_eqb d l = true |- _ => apply list_eqb_eq in E; subst d end;
        injection H as <-; pick_in | ]
  end.
  discriminate.
Qed.

Lemma parse_key_sound d k : parse_key d = Some k -> decodes d k.
Proof.
  unfold decodes, parse_key. destruct d as [|a [|b r]]; [discriminate| |].
  - intros H. left. exists a. split; auto. apply parse1_spec; auto.
  - cbv zeta. destruct (nthb (a :: b :: r) 0 =? 27) eqn:E0; [|discriminate].
    unfold nthb in *. cbn [nth] in E0. assert (a = 27) as -> by lia. clear E0.
    rewrite !orelse_some. intros [H|[_ [H|[_ [H|[_ H]]]]]].
    + destruct ((Nat.eqb (length (27 :: b :: r)) 3) && (nth 1 (27 :: b :: r) 0 =? 91)) eqn:E; [|discriminate].
      cbn [nth length] in *. destruct r as [|c [|? ?]]; cbn [length] in E; try lia.
      assert (b = 91) as -> by lia. cbn [nth] in H. unfold parse_arrow in H. right. left.
      destruct (c =? 65) eqn:E1; [assert (c = 65) as -> by lia; injection H as <-; pick_in|].
      destruct (c =? 66) eqn:E2; [assert (c = 66) as -> by lia; injection H as <-; pick_in|].
      destruct (c =? 67) eqn:E3; [assert (c = 67) as -> by lia; injection H as <-; pick_in|].
      destruct (c =? 68) eqn:E4; [assert (c = 68) as -> by lia; injection H as <-; pick_in|].
      discriminate.
    + destruct ((Nat.eqb (length (27 :: b :: r)) 3) && (nth 1 (27 :: b :: r) 0 =? 79)) eqn:E; [|discriminate].
      cbn [nth length] in *. destruct r as [|c [|? ?]]; cbn [length] in E; try lia.
      assert (b = 79) as -> by lia. cbn [nth] in H. unfold parse_ss3 in H. right. right.
      destruct (c =? 80) eqn:E1; [assert (c = 80) as -> by lia; injection H as <-; pick_in|].
      destruct (c =? 81) eqn:E2; [assert (c = 81) as -> by lia; injection H as <-; pick_in|].
      destruct (c =? 82) eqn:E3; [assert (c = 82) as -> by lia; injection H as <-; pick_in|].
      destruct (c =? 83) eqn:E4; [assert (c = 83) as -> by lia; injection H as <-; pick_in|].
      discriminate.
    + destruct (_ && _ && _); [|discriminate]. right. left. apply parse_tilde_in. auto.
    + destruct ((Nat.eqb (length (27 :: b :: r)) 3) && (nth 1 (27 :: b :: r) 0 =? 91)) eqn:E; [|discriminate].
      cbn [nth length] in *. destruct r as [|c [|? ?]]; cbn [length] in E; try lia.
      assert (b = 91) as -> by lia. cbn [nth] in H. unfold parse_hf in H. right. left.
      destruct (c =? 72) eqn:E1; [assert (c = 72) as -> by lia; injection H as <-; pick_in|].
      destruct (c =? 70) eqn:E2; [assert (c = 70) as -> by lia; injection H as <-; pick_in|].
      discriminate.
Qed.

Definition table_ok (tb : list (list Z * keymsg)) : Prop :=
  Forall (fun p => parse_key (fst p) = Some (snd p)) tb.

Lemma parse_key_complete d k : decodes d k -> parse_key d = Some k.
Proof.
  intros [(b & -> & Hb)|[H|H]].
  - cbn. apply parse1_spec. auto.
  - assert (Ht : table_ok csi_keys) by (repeat constructor).
    unfold table_ok in Ht. rewrite Forall_forall in Ht. apply (Ht _ H).
  - assert (Ht : table_ok ss3_keys) by (repeat constructor).
    unfold table_ok in Ht. rewrite Forall_forall in Ht. apply (Ht _ H).
Qed.

Lemma parse_key_spec d k : parse_key d = Some k <-> decodes d k.
Proof. split; [apply parse_key_sound|apply parse_key_complete]. Qed.

(* ---------- C09: chunking independence ---------- *)
(** Flat reader: one step on the whole remaining stream. *)
Definition flat1 (p : list Z) : option keymsg * list Z :=
  match p with
  | [] => (None, [])
  | b :: r => if b <? 128 then (parse1 b, r)
              else let '(c, n) := decode_rune p in (Some (rune_key c), skipn n p)
  end.
Fixpoint flat (fuel : nat) (p : list Z) : list keymsg :=
  match fuel, p with
  | O, _ | _, [] => []
  | S f, _ => let '(k, p') := flat1 p in
              match k with Some k => k :: flat f p' | None => flat f p' end
  end.

Lemma fill_byte_spec cs : match fill_byte cs with
  | None => concat cs = []
  | Some (b, s) => concat cs = b :: pending s
  end.
Proof.
  induction cs as [|[|b r] cs IH]; cbn; auto.
Qed.

Lemma read_byte_spec s : match read_byte s with
  | None => pending s = []
  | Some (b, s') => pending s = b :: pending s'
  end.
Proof.
  unfold read_byte, pending. destruct (buf s); cbn; auto. apply fill_byte_spec.
Qed.

Lemma fill_rune_spec cs : forall b,
  pending (fill_rune b cs) = b ++ concat cs /\
  decode_rune (buf (fill_rune b cs)) = decode_rune (b ++ concat cs) /\
  (exists q, buf (fill_rune b cs) = b ++ q).
Proof.
  induction cs as [|c cs IH]; intros b; cbn [fill_rune].
  - unfold pending; cbn. repeat split; auto; [rewrite app_nil_r; auto|]. exists []; rewrite app_nil_r; auto.
  - destruct ((length b <? 4)%nat && negb (full_rune b)) eqn:E.
    + destruct (IH (b ++ c)) as (H1 & H2 & (q & H3)). cbn [concat]. rewrite H1, H2, <- !app_assoc.
      repeat split; auto. exists (c ++ q). rewrite H3, <- app_assoc. auto.
    + unfold pending; cbn [buf chunks]. repeat split; auto.
      * symmetry. apply decode_full.
        destruct (full_rune b) eqn:F; auto. apply full_4 in F || (rewrite <- F; apply full_4; lia).
      * exists []; rewrite app_nil_r; auto.
Qed.

Lemma read_rune_spec s : buf s <> [] ->
  let '(r, s') := read_rune s in
  let '(r0, n) := decode_rune (pending s) in
  r = r0 /\ pending s' = skipn n (pending s).
Proof.
  intros Hne. unfold read_rune. destruct (fill_rune_spec (chunks s) (buf s)) as (H1 & H2 & q & H3).
  change (buf s ++ concat (chunks s)) with (pending s) in *.
  rewrite H2. destruct (decode_rune (pending s)) as [r n] eqn:E. split; auto.
  unfold pending at 1. cbn [buf chunks].
  assert (Hn : (n <= length (buf (fill_rune (buf s) (chunks s))))%nat).
  { pose proof (decode_size (buf (fill_rune (buf s) (chunks s)))) as Hs.
    rewrite H2 in Hs. cbn in Hs. apply Hs. rewrite H3. destruct (buf s); [congruence|discriminate]. }
  rewrite <- H1. unfold pending. rewrite skipn_app.
  replace (n - _)%nat with 0%nat by lia. reflexivity.
Qed.

Lemma read_flat s : ~ In 27 (pending s) ->
  match read s with
  | None => pending s = []
  | Some (k, s') => pending s <> [] /\ flat1 (pending s) = (k, pending s')
  end.
Proof.
  intros H27. unfold read. pose proof (read_byte_spec s) as Hb.
  destruct (read_byte s) as [[b s1]|]; auto.
  rewrite Hb in *. destruct (b =? 27) eqn:E27.
  { exfalso. apply H27. left. lia. }
  cbn [parse_key]. unfold flat1. destruct (b <? 128) eqn:E128.
  - destruct (parse1 b) eqn:Ep.
    + split; [discriminate|]. auto.
    + replace (128 <=? b) with false by lia.
      destruct ((32 <=? b) && (b <=? 126)) eqn:Er.
      * exfalso. unfold parse1 in Ep.
        destruct ((b =? 13) || (b =? 10)); [discriminate|]. destruct (b =? 127); [discriminate|].
        destruct (b =? 8); [discriminate|]. destruct (b =? 9); [discriminate|].
        destruct (b =? 27); [discriminate|]. destruct (b =? 32); [discriminate|].
        destruct (_ && _ && _ && _ && _ && _); [discriminate|]. rewrite Er in Ep. discriminate.
      * split; [discriminate|]. auto.
  - assert (Ep : parse1 b = None).
    { destruct (parse1 b) eqn:Ep; auto. apply parse1_spec in Ep. inversion Ep; lia. }
    rewrite Ep. replace (128 <=? b) with true by lia.
    pose proof (read_rune_spec (RS (b :: buf s1) (chunks s1)) ltac:(discriminate)) as Hr.
    destruct (read_rune _) as [r s3].
    change (pending (RS (b :: buf s1) (chunks s1))) with (b :: pending s1) in Hr.
    destruct (decode_rune (b :: pending s1)) as [r0 n]. destruct Hr as [-> Hr].
    split; [discriminate|]. rewrite Hr. reflexivity.
Qed.

Lemma flat1_shrink p : p <> [] -> (length (snd (flat1 p)) < length p)%nat /\
  forall x, In x (snd (flat1 p)) -> In x p.
Proof.
  intros Hp. unfold flat1. destruct p as [|b r]; [congruence|].
  destruct (b <? 128); [cbn; split; [lia|auto]|].
  pose proof (decode_size (b :: r) Hp) as Hs. destruct (decode_rune (b :: r)) as [c n].
  cbn [snd] in *. rewrite skipn_length. split; [lia|].
  intros x Hx. rewrite <- (firstn_skipn n (b :: r)). apply in_or_app. auto.
Qed.

Lemma read_all_flat fuel : forall s, ~ In 27 (pending s) ->
  read_all fuel s = flat fuel (pending s).
Proof.
  induction fuel as [|f IH]; intros s H27; [reflexivity|].
  cbn [read_all flat]. pose proof (read_flat s H27) as Hr.
  destruct (read s) as [[k s']|].
  - destruct Hr as [Hne Hf]. pose proof (flat1_shrink (pending s) Hne) as [_ Hin].
    destruct (pending s) eqn:Ep; [congruence|]. rewrite Hf in *. cbn [snd] in Hin.
    assert (~ In 27 (pending s')) by (intros Hc; apply H27, Hin, Hc).
    destruct k; rewrite IH; auto.
  - rewrite Hr. reflexivity.
Qed.

Lemma flat_enough f1 : forall f2 p, (length p < f1)%nat -> (length p < f2)%nat -> flat f1 p = flat f2 p.
Proof.
  induction f1 as [|f1 IH]; intros f2 p H1 H2; [lia|].
  destruct f2 as [|f2]; [lia|]. destruct p as [|b r]; [reflexivity|].
  cbn [flat]. pose proof (flat1_shrink (b :: r) ltac:(discriminate)) as [Hl _].
  destruct (flat1 (b :: r)) as [k p']. cbn [snd] in Hl.
  rewrite (IH f2 p') by lia. reflexivity.
Qed.

Lemma chunk_independent cs cs' : ~ In 27 (concat cs) -> concat cs = concat cs' ->
  delivered cs = delivered cs'.
Proof.
  intros H Heq. unfold delivered.
  rewrite !read_all_flat; unfold pending; cbn [buf chunks app]; rewrite <- ?Heq; auto.
Qed.

Lemma enc_not_27 s : Forall scalar s -> ~ In 27 s -> ~ In 27 (enc s).
Proof.
  intros Hs. induction Hs as [|c s Hc Hs IH]; cbn; auto.
  intros Hn Hin. apply in_app_or in Hin as [Hin|Hin]; [|tauto].
  destruct (Z.ltb_spec c 128).
  - unfold enc_rune in Hin. replace (c <? 128) with true in Hin by lia.
    cbn in Hin. tauto.
  - pose proof (enc_rune_high c ltac:(lia) Hc) as Hh. rewrite Forall_forall in Hh.
    specialize (Hh _ Hin). lia.
Qed.

Lemma flat_text s : Forall scalar s -> ~ In 27 s -> forall f, (length (enc s) < f)%nat ->
  flat f (enc s) = flat_map char_msgs s.
Proof.
  intros Hs. induction Hs as [|c s Hc Hs IH]; intros Hn f Hf.
  - destruct f; reflexivity.
  - cbn [flat_map]. destruct f as [|f]; [lia|]. cbn [enc flat_map] in *.
    change (flat_map enc_rune s) with (enc s) in *.
    assert (Hne := enc_rune_ne c).
    cbn [flat]. destruct (enc_rune c ++ enc s) eqn:E.
    { apply app_eq_nil in E. tauto. }
    rewrite <- E in *.
    assert (Hf1 : flat1 (enc_rune c ++ enc s) = (hd_error (char_msgs c), enc s)).
    { destruct (Z.ltb_spec c 128).
      - unfold enc_rune. replace (c <? 128) with true by lia. cbn [app flat1].
        replace (c <? 128) with true by lia. f_equal.
        assert (c <> 27) by (intros ->; apply Hn; cbn; auto). unfold scalar in Hc.
        unfold parse1, char_msgs.
        destruct ((c =? 13) || (c =? 10)) eqn:E1; [reflexivity|].
        destruct (c =? 127) eqn:E2; [reflexivity|]. cbn [orb].
        destruct (c =? 8) eqn:E3; [reflexivity|].
        destruct (c =? 9) eqn:E4; [reflexivity|].
        replace (c =? 27) with false by lia.
        destruct (c =? 32) eqn:E6; [reflexivity|].
        destruct ((1 <=? c) && (c <=? 26)) eqn:E7.
        + match goal with |- context [if ?b then Some (ctrl_key _) else _] => replace b with true by lia end.
          cbn [hd_error]. unfold ctrl_key. f_equal. f_equal. lia.
        + cbn [andb]. destruct (c <? 32) eqn:E8.
          * replace ((32 <=? c) && (c <=? 126)) with false by lia. reflexivity.
          * replace ((32 <=? c) && (c <=? 126)) with true by lia. reflexivity.
      - unfold flat1. rewrite E.
        assert (Hz : 128 <= z).
        { pose proof (enc_rune_high c ltac:(lia) Hc) as Hh. destruct (enc_rune c); [congruence|].
          cbn in E. injection E as -> _. inversion Hh; auto. }
        replace (z <? 128) with false by lia. rewrite <- E, decode_enc by auto.
        rewrite skipn_app, skipn_all, Nat.sub_diag. cbn [skipn app]. f_equal.
        unfold char_msgs. replace ((c =? 13) || (c =? 10)) with false by lia.
        replace ((c =? 127) || (c =? 8)) with false by lia. replace (c =? 9) with false by lia.
        replace (c =? 32) with false by lia. replace ((1 <=? c) && (c <=? 26)) with false by lia.
        replace (c <? 32) with false by lia. reflexivity. }
    rewrite Hf1. rewrite app_length in Hf.
    assert (Hl : (0 < length (enc_rune c))%nat) by (destruct (enc_rune c); [congruence|cbn; lia]).
    assert (Hs1 : length (char_msgs c) = 0%nat \/ length (char_msgs c) = 1%nat).
    { unfold char_msgs. repeat match goal with |- context [if ?b then _ else _] => destruct b; auto end. }
    specialize (IH ltac:(cbn in Hn; tauto) f ltac:(lia)).
    destruct (char_msgs c) as [|k [|? ?]]; cbn in *; try lia; rewrite IH; reflexivity.
Qed.

Lemma delivered_text s cs : Forall scalar s -> ~ In 27 s -> concat cs = enc s ->
  delivered cs = flat_map char_msgs s.
Proof.
  intros Hs Hn Hc. unfold delivered. rewrite read_all_flat; unfold pending; cbn [buf chunks app]; rewrite Hc.
  - apply flat_text; auto.
  - apply enc_not_27; auto.
Qed.

(* ---------- C10 ---------- *)
Definition csi_ok (p : list Z * keymsg) : Prop :=
  forall rest cs, read (RS (fst p ++ rest) cs) = Some (Some (snd p), RS rest cs).

Lemma csi_read : Forall csi_ok csi_keys.
Proof. repeat constructor; intros rest cs; reflexivity. Qed.

Lemma csi_delivered d k : In (d, k) csi_keys ->
  forall rest cs, read (RS (d ++ rest) cs) = Some (Some k, RS rest cs).
Proof.
  intros H. pose proof csi_read as Hc. rewrite Forall_forall in Hc. apply (Hc _ H).
Qed.

(** First byte of a fresh read: the chunk becomes the buffer. *)
Lemma read_fresh d rest cs : d <> [] -> read (RS [] ((d ++ rest) :: cs)) = read (RS (d ++ rest) cs).
Proof.
  intros Hd. destruct d as [|b d]; [congruence|]. unfold read, read_byte. reflexivity.
Qed.

(* ---------- C59: names of decodable keys ---------- *)
Definition all_keys : list keymsg :=
  map snd csi_keys ++ map snd ss3_keys ++
  flat_map (fun n => match parse1 (Z.of_nat n) with Some k => [k] | None => [] end) (seq 0 128).

Lemma decodes_in d k : decodes d k -> In k all_keys.
Proof.
  unfold all_keys. intros [(b & -> & Hb)|[H|H]].
  - apply in_or_app; right. apply in_or_app; right. apply in_flat_map.
    assert (Hr : 0 <= b < 128) by (inversion Hb; lia).
    exists (Z.to_nat b). split; [apply in_seq; lia|]. rewrite Z2Nat.id by lia.
    apply parse1_spec in Hb. rewrite Hb. cbn. auto.
  - apply in_or_app; left. apply in_map_iff. exists (d, k). auto.
  - apply in_or_app; right. apply in_or_app; left. apply in_map_iff. exists (d, k). auto.
Qed.

Definition keytype_eq_dec (a b : keytype) : {a = b} + {a <> b}.
Proof. decide equality. Defined.
Definition key_eq_dec (a b : keymsg) : {a = b} + {a <> b}.
Proof.
  decide equality; try apply Bool.bool_dec; try apply Z.eq_dec; apply keytype_eq_dec.
Defined.

Lemma key_string_sweep :
  forallb (fun a => forallb (fun b =>
    if list_eqb (key_string a) (key_string b) then (if key_eq_dec a b then true else false) else true)
    all_keys) all_keys = true.
Proof. vm_compute. reflexivity. Qed.

Lemma key_string_inj d1 d2 a b : parse_key d1 = Some a -> parse_key d2 = Some b ->
  key_string a = key_string b -> a = b.
Proof.
  intros Ha Hb He. apply parse_key_spec, decodes_in in Ha, Hb.
  pose proof key_string_sweep as H. rewrite forallb_forall in H. specialize (H a Ha).
  rewrite forallb_forall in H. specialize (H b Hb). rewrite He, list_eqb_refl in H.
  destruct (key_eq_dec a b); [auto|discriminate].
Qed.
