(** Go's unicode/utf8 (standard library, trusted semantics): encoding, DecodeRune, FullRune.
    Not /repo code; written from the documented behaviour of Go's package. Bytes are
    [Z] in 0..255. *)
From Verif Require Import Prelude.

Definition rune_error : Z := 65533.

Definition scalar (c : Z) : Prop := (0 <= c < 55296) \/ (57344 <= c <= 1114111).
Definition scalarb (c : Z) : bool := ((0 <=? c) && (c <? 55296)) || ((57344 <=? c) && (c <=? 1114111)).

(** utf8.AppendRune for a scalar value. *)
Definition enc_rune (c : Z) : list Z :=
  if c <? 128 then [c]
  else if c <? 2048 then [192 + c / 64; 128 + c mod 64]
  else if c <? 65536 then [224 + c / 4096; 128 + (c / 64) mod 64; 128 + c mod 64]
  else [240 + c / 262144; 128 + (c / 4096) mod 64; 128 + (c / 64) mod 64; 128 + c mod 64].

Definition enc (s : list Z) : list Z := flat_map enc_rune s.

Definition cont (b : Z) : bool := (128 <=? b) && (b <=? 191).

(** Number of bytes announced by a first byte (1 for ASCII and invalid). *)
Definition seqlen (b : Z) : Z :=
  if (194 <=? b) && (b <=? 223) then 2
  else if (224 <=? b) && (b <=? 239) then 3
  else if (240 <=? b) && (b <=? 244) then 4 else 1.

(** Accepted range of the second byte. *)
Definition lo2 (b : Z) : Z := if b =? 224 then 160 else if b =? 240 then 144 else 128.
Definition hi2 (b : Z) : Z := if b =? 237 then 159 else if b =? 244 then 143 else 191.
Definition ok2 (b c : Z) : bool := (lo2 b <=? c) && (c <=? hi2 b).

(** utf8.DecodeRune: rune and number of bytes consumed. *)
Definition decode_rune (p : list Z) : Z * nat :=
  match p with
  | [] => (rune_error, 0%nat)
  | b :: r =>
      if b <? 128 then (b, 1%nat)
      else if seqlen b =? 1 then (rune_error, 1%nat)
      else match r with
      | [] => (rune_error, 1%nat)
      | c :: r2 =>
          if negb (ok2 b c) then (rune_error, 1%nat)
          else if seqlen b =? 2 then ((b - 192) * 64 + (c - 128), 2%nat)
          else match r2 with
          | [] => (rune_error, 1%nat)
          | d :: r3 =>
              if negb (cont d) then (rune_error, 1%nat)
              else if seqlen b =? 3 then ((b - 224) * 4096 + (c - 128) * 64 + (d - 128), 3%nat)
              else match r3 with
              | [] => (rune_error, 1%nat)
              | e :: _ =>
                  if negb (cont e) then (rune_error, 1%nat)
                  else ((b - 240) * 262144 + (c - 128) * 4096 + (d - 128) * 64 + (e - 128), 4%nat)
              end
          end
      end
  end.

(** utf8.FullRune. *)
Definition full_rune (p : list Z) : bool :=
  match p with
  | [] => false
  | b :: r =>
      if seqlen b <=? Z.of_nat (length p) then true
      else match r with
      | [] => false
      | c :: r2 =>
          if negb (ok2 b c) then true
          else match r2 with
          | [] => false
          | d :: _ => negb (cont d)
          end
      end
  end.

Lemma scalarb_spec c : scalarb c = true <-> scalar c.
Proof. unfold scalarb, scalar. lia. Qed.

Ltac conv_bool :=
  repeat match goal with
  | |- context [if ?b then _ else _] =>
      first [ replace b with true by lia | replace b with false by lia ]
  end.

Lemma decode_enc c rest : scalar c ->
  decode_rune (enc_rune c ++ rest) = (c, length (enc_rune c)).
Proof.
  intros Hc. unfold scalar in Hc. unfold enc_rune.
  destruct (c <? 128) eqn:E1.
  { cbn [app decode_rune]. rewrite E1. reflexivity. }
  destruct (c <? 2048) eqn:E2.
  { cbn [app decode_rune length].
    replace (192 + c / 64 <? 128) with false by lia.
    assert (Hs : seqlen (192 + c / 64) = 2) by (unfold seqlen; replace ((194 <=? 192 + c / 64) && (192 + c / 64 <=? 223)) with true by lia; reflexivity).
    rewrite Hs. cbn [Z.eqb Pos.eqb].
    replace (ok2 (192 + c / 64) (128 + c mod 64)) with true
      by (unfold ok2, lo2, hi2; conv_bool; lia).
    cbn [negb]. f_equal. lia. }
  destruct (c <? 65536) eqn:E3.
  { cbn [app decode_rune length].
    set (b := 224 + c / 4096) in *.
    replace (b <? 128) with false by lia.
    assert (Hb : 224 <= b <= 239) by lia.
    assert (Hs : seqlen b = 3).
    { unfold seqlen. replace ((194 <=? b) && (b <=? 223)) with false by lia.
      replace ((224 <=? b) && (b <=? 239)) with true by lia. reflexivity. }
    rewrite Hs. cbn [Z.eqb Pos.eqb].
    replace (ok2 b (128 + c / 64 mod 64)) with true.
    2:{ symmetry. unfold ok2, lo2, hi2. destruct (b =? 224) eqn:X1, (b =? 240) eqn:X2, (b =? 237) eqn:X3, (b =? 244) eqn:X4; lia. }
    replace (cont (128 + c mod 64)) with true by (unfold cont; lia).
    cbn [negb]. f_equal. lia. }
  cbn [app decode_rune length].
  set (b := 240 + c / 262144) in *.
  replace (b <? 128) with false by lia.
  assert (Hb : 240 <= b <= 244) by lia.
  assert (Hs : seqlen b = 4).
  { unfold seqlen. replace ((194 <=? b) && (b <=? 223)) with false by lia.
    replace ((224 <=? b) && (b <=? 239)) with false by lia.
    replace ((240 <=? b) && (b <=? 244)) with true by lia. reflexivity. }
  rewrite Hs. cbn [Z.eqb Pos.eqb].
  replace (ok2 b (128 + c / 4096 mod 64)) with true.
  2:{ symmetry. unfold ok2, lo2, hi2. destruct (b =? 224) eqn:X1, (b =? 240) eqn:X2, (b =? 237) eqn:X3, (b =? 244) eqn:X4; lia. }
  replace (cont (128 + c / 64 mod 64)) with true by (unfold cont; lia).
  replace (cont (128 + c mod 64)) with true by (unfold cont; lia).
  cbn [negb]. f_equal. lia.
Qed.

Lemma enc_rune_bytes c : scalar c -> Forall (fun b => 0 <= b <= 255) (enc_rune c).
Proof.
  intros Hc. unfold scalar in Hc. unfold enc_rune.
  destruct (c <? 128) eqn:E1; [|destruct (c <? 2048) eqn:E2; [|destruct (c <? 65536) eqn:E3]];
  repeat constructor; lia.
Qed.

Lemma enc_rune_high c : 128 <= c -> scalar c -> Forall (fun b => 128 <= b) (enc_rune c).
Proof.
  intros H Hc. unfold scalar in Hc. unfold enc_rune.
  destruct (c <? 128) eqn:E1; [lia|destruct (c <? 2048) eqn:E2; [|destruct (c <? 65536) eqn:E3]];
  repeat constructor; lia.
Qed.

Lemma enc_rune_ne c : enc_rune c <> [].
Proof.
  unfold enc_rune. destruct (c <? 128); [|destruct (c <? 2048); [|destruct (c <? 65536)]]; discriminate.
Qed.

(** Extra input never changes the decoding of a full rune. *)
Lemma decode_full p q : full_rune p = true -> decode_rune (p ++ q) = decode_rune p.
Proof.
  unfold full_rune, decode_rune. destruct p as [|b r]; [discriminate|].
  cbn [app length]. destruct (b <? 128) eqn:Eb; auto.
  destruct (seqlen b =? 1) eqn:E1; auto.
  assert (Hs : 1 <= seqlen b <= 4).
  { unfold seqlen. destruct (_ && _); [lia|]. destruct (_ && _); [lia|]. destruct (_ && _); lia. }
  destruct r as [|c r]; cbn [app length].
  { destruct (seqlen b <=? Z.of_nat 1) eqn:E; [lia|discriminate]. }
  destruct (ok2 b c) eqn:E2; cbn [negb]; auto.
  destruct (seqlen b =? 2) eqn:E3; auto.
  destruct r as [|d r]; cbn [app length].
  { destruct (seqlen b <=? Z.of_nat 2) eqn:E; [lia|discriminate]. }
  destruct (cont d) eqn:E4; cbn [negb]; auto.
  destruct (seqlen b =? 3) eqn:E5; auto.
  destruct r as [|e r]; cbn [app length]; auto.
  destruct (seqlen b <=? Z.of_nat 3) eqn:E; [lia|discriminate].
Qed.

Lemma full_4 p : (4 <= length p)%nat -> full_rune p = true.
Proof.
  intros H. unfold full_rune. destruct p as [|b r]; [cbn in H; lia|].
  assert (Hs : 1 <= seqlen b <= 4).
  { unfold seqlen. destruct (_ && _); [lia|]. destruct (_ && _); [lia|]. destruct (_ && _); lia. }
  destruct (seqlen b <=? Z.of_nat (length (b :: r))) eqn:E; auto. lia.
Qed.

Lemma decode_size p : p <> [] -> (1 <= snd (decode_rune p) <= length p)%nat.
Proof.
  intros H. unfold decode_rune. destruct p as [|b r]; [congruence|].
  cbn [length]. destruct (b <? 128); [cbn; lia|]. destruct (seqlen b =? 1); [cbn; lia|].
  destruct r as [|c r]; [cbn; lia|]. cbn [length]. destruct (negb (ok2 b c)); [cbn; lia|].
  destruct (seqlen b =? 2); [cbn; lia|].
  destruct r as [|d r]; [cbn; lia|]. cbn [length]. destruct (negb (cont d)); [cbn; lia|].
  destruct (seqlen b =? 3); [cbn; lia|].
  destruct r as [|e r]; [cbn; lia|]. cbn [length]. destruct (negb (cont e)); cbn; lia.
Qed.

(** Decoding a whole byte string, Go's [for range] / []rune conversion. *)
Fixpoint decode_all (fuel : nat) (p : list Z) : list Z :=
  match fuel, p with
  | O, _ => []
  | _, [] => []
  | S f, _ => let '(r, n) := decode_rune p in r :: decode_all f (skipn n p)
  end.

Lemma enc_app a b : enc (a ++ b) = enc a ++ enc b.
Proof. apply flat_map_app. Qed.

Lemma decode_all_enc s : Forall scalar s -> forall fuel, (length s <= fuel)%nat ->
  decode_all fuel (enc s) = s.
Proof.
  intros Hs. induction Hs as [|c s Hc Hs IH]; intros fuel Hf.
  - destruct fuel; reflexivity.
  - destruct fuel as [|fuel]; [cbn in Hf; lia|]. cbn [enc flat_map].
    change (flat_map enc_rune s) with (enc s).
    cbn [decode_all]. destruct (enc_rune c ++ enc s) eqn:E.
    { apply app_eq_nil in E as [E _]. exfalso. eapply enc_rune_ne; eauto. }
    rewrite <- E. rewrite decode_enc by auto. f_equal.
    rewrite skipn_app, skipn_all, Nat.sub_diag. cbn. apply IH. cbn in Hf. lia.
Qed.

Lemma decode_all_fuel f1 : forall f2 p, (length p <= f1)%nat -> (length p <= f2)%nat ->
  decode_all f1 p = decode_all f2 p.
Proof.
  induction f1 as [|f1 IH]; intros f2 p H1 H2.
  - destruct p; [|cbn in H1; lia]. destruct f2; reflexivity.
  - destruct p as [|b r]; [destruct f2; reflexivity|].
    destruct f2 as [|f2]; [cbn in H2; lia|]. cbn [decode_all].
    pose proof (decode_size (b :: r) ltac:(discriminate)) as Hs.
    destruct (decode_rune (b :: r)) as [c n]. cbn [snd] in Hs. f_equal.
    apply IH; rewrite skipn_length; cbn [length] in *; lia.
Qed.

(** Runes of a byte string (Go's range loop). *)
Definition runes_of (p : list Z) : list Z := decode_all (length p) p.

Lemma runes_of_cons_rune c p : scalar c -> runes_of (enc_rune c ++ p) = c :: runes_of p.
Proof.
  intros Hc. unfold runes_of. rewrite app_length.
  assert (Hne := enc_rune_ne c).
  assert (Hl : (0 < length (enc_rune c))%nat) by (destruct (enc_rune c); [congruence|cbn; lia]).
  destruct (length (enc_rune c) + length p)%nat as [|f] eqn:E; [lia|]. cbn [decode_all].
  destruct (enc_rune c ++ p) eqn:Ea; [apply app_eq_nil in Ea; tauto|]. rewrite <- Ea.
  rewrite decode_enc by auto. f_equal. rewrite skipn_app, skipn_all, Nat.sub_diag. cbn [skipn app].
  apply decode_all_fuel; lia.
Qed.

Lemma runes_of_enc s : Forall scalar s -> runes_of (enc s) = s.
Proof.
  intros Hs. induction Hs as [|c s Hc Hs IH]; [reflexivity|].
  cbn [enc flat_map]. rewrite runes_of_cons_rune by auto. f_equal. exact IH.
Qed.

Lemma runes_of_stray b p : 128 <= b <= 191 -> runes_of (b :: p) = rune_error :: runes_of p.
Proof.
  intros Hb. unfold runes_of. cbn [length decode_all decode_rune].
  replace (b <? 128) with false by lia.
  replace (seqlen b =? 1) with true.
  2:{ unfold seqlen. replace ((194 <=? b) && (b <=? 223)) with false by lia.
      replace ((224 <=? b) && (b <=? 239)) with false by lia.
      replace ((240 <=? b) && (b <=? 244)) with false by lia. reflexivity. }
  reflexivity.
Qed.
