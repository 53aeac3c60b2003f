(** C283: a mix of typed characters, function keys and Esc presses is delivered key by
    key, however the bytes are split into reads, as long as no escape sequence is split
    and a lone Esc ends its read. Model: KeysModel. *)
From Verif Require Import Prelude Utf8 KeysModel KeysSpec KeysProofs.

(** ** Specification *)

(** A keystroke: a character (control characters included, Esc excluded), a function key
    sent as a CSI sequence, the Esc key, or anything else the terminal may send as a CSI sequence (modified keys,
    reports): parameter and intermediate bytes and a final letter or tilde, not in the table, at most 11 bytes. *)
Inductive stroke := Chr (c : Z) | Fun (d : list Z) (k : keymsg) | Esc | Unk (ps : list Z) (f : Z).
Definition csi (ps : list Z) (f : Z) : list Z := 27 :: 91 :: ps ++ [f].
Definition final_ok (f : Z) : Prop := 65 <= f <= 90 \/ 97 <= f <= 122 \/ f = 126.
Definition stroke_ok (k : stroke) : Prop :=
  match k with
  | Chr c => scalar c /\ c <> 27
  | Fun d k => In (d, k) csi_keys
  | Esc => True
  | Unk ps f => Forall (fun b => 32 <= b <= 63) ps /\ final_ok f /\ (length (csi ps f) <= 11)%nat /\ forall k, ~ In (csi ps f, k) csi_keys
  end.
(** What the terminal sends for it ... *)
Definition stroke_bytes (k : stroke) : list Z :=
  match k with Chr c => enc_rune c | Fun d _ => d | Esc => [27] | Unk ps f => csi ps f end.
(** ... and the messages the program should get. *)
Definition stroke_msgs (k : stroke) : list keymsg :=
  match k with Chr c => char_msgs c | Fun _ k => [k] | Esc => [named KEsc] | Unk _ _ => [] end.

(** Some read ends (or the input starts) after the first [p] bytes. *)
Definition boundary (reads : list (list Z)) (p : nat) : Prop :=
  exists a b, reads = a ++ b /\ length (concat a) = p.

(** The keystrokes arrive in these reads: no CSI sequence is split between two reads and
    no byte follows an Esc in its read. Characters may be split anywhere. *)
Definition arrives (ks : list stroke) (reads : list (list Z)) : Prop :=
  concat reads = flat_map stroke_bytes ks /\
  forall pre k post, ks = pre ++ k :: post ->
    let i := length (flat_map stroke_bytes pre) in
    match k with
    | Chr _ => True
    | Fun _ _ | Unk _ _ => forall p, (0 < p < length (stroke_bytes k))%nat -> ~ boundary reads (i + p)
    | Esc => boundary reads (i + 1)
    end.

(** ** Proofs *)
Definition lst (s : rstate) : list (list Z) := buf s :: chunks s.

Lemma first_read l b rest : concat l = b :: rest ->
  exists (e : list (list Z)) r cs, l = e ++ (b :: r) :: cs /\ concat e = [].
Proof.
  induction l as [|[|x r] l IH]; cbn [concat app]; intros H; [discriminate| |].
  - destruct (IH H) as (e & r & cs & -> & He). exists ([] :: e), r, cs. auto.
  - injection H as -> _. exists [], r, l. auto.
Qed.

Lemma fill_skip e b r cs : @concat Z e = [] -> fill_byte (e ++ (b :: r) :: cs) = Some (b, RS r cs).
Proof.
  induction e as [|[|x y] e IH]; cbn; intros H; auto; discriminate.
Qed.

Lemma read_byte_first s e b r cs : lst s = e ++ (b :: r) :: cs -> concat e = [] -> read_byte s = Some (b, RS r cs).
Proof.
  destruct s as [bf ch]. unfold lst, read_byte. cbn [buf chunks]. destruct e as [|x e]; cbn [app]; intros H He.
  - injection H as -> ->. reflexivity.
  - injection H as -> ->. cbn [concat] in He. apply app_eq_nil in He as [-> He]. cbn. apply fill_skip; auto.
Qed.

Lemma boundary_skip (e l : list (list Z)) p : concat e = [] -> boundary (e ++ l) p <-> boundary l p.
Proof.
  intros He. split; intros (a & b & Hab & <-).
  - revert a b Hab. induction e as [|x e IH]; intros a b Hab.
    + exists a, b. auto.
    + cbn [concat] in He. apply app_eq_nil in He as [-> He]. destruct a as [|y a].
      * exists [], l. auto.
      * cbn [app] in Hab. injection Hab as <- Hab. cbn [concat app]. exact (IH He a b Hab).
  - exists (e ++ a), b. rewrite Hab, app_assoc, concat_app, He. auto.
Qed.

(** Dropping a prefix of the first read keeps the later boundaries. *)
Lemma boundary_drop x y cs p : (0 < p)%nat -> boundary ((x ++ y) :: cs) (length x + p) <-> boundary (y :: cs) p.
Proof.
  intros Hp. split; intros (a & b & Hab & Hl); destruct a as [|z a]; cbn [app concat length] in *; try lia; injection Hab as <- ->; rewrite ?app_length in *.
  - exists (y :: a), b. cbn [app concat]. rewrite app_length. split; [reflexivity|lia].
  - exists ((x ++ y) :: a), b. cbn [app concat]. rewrite !app_length. split; [reflexivity|lia].
Qed.

Lemma full_enc c q : scalar c -> full_rune (enc_rune c ++ q) = true.
Proof.
  intros Hc. assert (H : exists b r, enc_rune c = b :: r /\ seqlen b <= Z.of_nat (length (b :: r))).
  { unfold scalar in Hc. unfold enc_rune, seqlen. destruct (c <? 128) eqn:E1; [|destruct (c <? 2048) eqn:E2; [|destruct (c <? 65536) eqn:E3]];
    eexists _, _; (split; [reflexivity|]); cbn [length].
    - replace ((194 <=? c) && (c <=? 223)) with false by lia. replace ((224 <=? c) && (c <=? 239)) with false by lia.
      replace ((240 <=? c) && (c <=? 244)) with false by lia. lia.
    - replace (_ && _) with true by lia. lia.
    - destruct (_ && _); [lia|]. replace (_ && _) with true by lia. lia.
    - repeat destruct (_ && _); lia. }
  destruct H as (b & r & -> & Hl). cbn [app full_rune]. cbn [length] in *. rewrite app_length.
  replace (seqlen b <=? _) with true by lia. reflexivity.
Qed.

(** What ReadRune buffers: whole reads, none of them needless. *)
Lemma fill_rune_reads cs : forall b, exists a cs', cs = a ++ cs' /\ fill_rune b cs = RS (b ++ concat a) cs' /\
  (a = [] \/ exists a' x, a = a' ++ [x] /\ full_rune (b ++ concat a') = false).
Proof.
  induction cs as [|c cs IH]; intros b; cbn [fill_rune].
  - exists [], []. cbn [concat]. rewrite !app_nil_r. auto.
  - destruct ((length b <? 4)%nat && negb (full_rune b)) eqn:E.
    + destruct (IH (b ++ c)) as (a & cs' & -> & Hf & Hor). exists (c :: a), cs'. cbn [concat app].
      rewrite Hf, app_assoc. repeat split; auto. right. destruct Hor as [->|(a' & x & -> & Hn)].
      * exists [], c. cbn [concat app]. rewrite app_nil_r. split; auto. destruct (full_rune b); auto. rewrite andb_false_r in E. discriminate.
      * exists (c :: a'), x. cbn [concat app]. rewrite app_assoc. auto.
    + exists [], (c :: cs). cbn [concat app]. rewrite app_nil_r. auto.
Qed.

(** Joining reads loses only the boundaries inside. *)
Lemma boundary_join a x l p : (length (concat a) < p)%nat ->
  (boundary ((concat a ++ x) :: l) p -> boundary (a ++ x :: l) p) /\
  (boundary (a ++ x :: l) p -> boundary ((concat a ++ x) :: l) p).
Proof.
  intros Hp. split; intros (u & v & Huv & Hl).
  - destruct u as [|y u]; cbn [concat length app] in *; [lia|]. injection Huv as <- ->.
    exists (a ++ x :: u), v. rewrite <- app_assoc. split; [reflexivity|]. rewrite concat_app. cbn [concat]. rewrite !app_length in *. lia.
  - apply app_eq_app in Huv as (w & [[-> Hw]|[-> Hw]]).
    + rewrite concat_app, app_length in Hp. lia.
    + destruct w as [|y w]; cbn [app] in Hw.
      * rewrite app_nil_r in *. lia.
      * injection Hw as <- ->. exists ((concat a ++ x) :: w), v. split; [reflexivity|].
        rewrite concat_app in Hl. cbn [concat] in *. rewrite !app_length in *. lia.
Qed.

(** ReadRune on a character: its bytes are consumed, the later boundaries stay. *)
Lemma read_rune_char b r cs c rest : scalar c -> concat ((b :: r) :: cs) = enc_rune c ++ rest ->
  exists s', read_rune (RS (b :: r) cs) = (c, s') /\ pending s' = rest /\
    forall p, (0 < p)%nat -> boundary (lst s') p <-> boundary ((b :: r) :: cs) (length (enc_rune c) + p).
Proof.
  intros Hc Hp. unfold read_rune. cbn [buf chunks].
  destruct (fill_rune_reads cs (b :: r)) as (a & cs' & -> & Hf & Hor). rewrite Hf. cbn [buf chunks].
  cbn [concat] in Hp. rewrite concat_app, app_assoc in Hp.
  set (q := (b :: r) ++ concat a) in *.
  assert (Hd : decode_rune q = (c, length (enc_rune c))).
  { destruct (fill_rune_spec (a ++ cs') (b :: r)) as (_ & H & _). rewrite Hf in H. cbn [buf] in H. rewrite H.
    rewrite concat_app, app_assoc. fold q. rewrite Hp. apply decode_enc; auto. }
  rewrite Hd. eexists. split; [reflexivity|].
  pose proof (decode_size q ltac:(discriminate)) as Hs. rewrite Hd in Hs. cbn [snd] in Hs.
  assert (Hq : q = enc_rune c ++ skipn (length (enc_rune c)) q).
  { rewrite <- (firstn_skipn (length (enc_rune c)) q) at 1. f_equal.
    apply (f_equal (firstn (length (enc_rune c)))) in Hp. rewrite !firstn_app, Nat.sub_diag, firstn_all in Hp.
    replace (length (enc_rune c) - length q)%nat with 0%nat in Hp by lia. cbn [firstn] in Hp. rewrite !app_nil_r in Hp. exact Hp. }
  split.
  - unfold pending. cbn [buf chunks]. apply (f_equal (skipn (length (enc_rune c)))) in Hp.
    rewrite !skipn_app, Nat.sub_diag, skipn_all in Hp. replace (length (enc_rune c) - length q)%nat with 0%nat in Hp by lia. exact Hp.
  - intros p Hp0. unfold lst. cbn [buf chunks]. rewrite <- (boundary_drop (enc_rune c) (skipn (length (enc_rune c)) q) cs' p Hp0), <- Hq.
    destruct Hor as [->|(a' & x & -> & Hn)].
    + unfold q. cbn [concat app]. rewrite app_nil_r. reflexivity.
    + pose proof (boundary_join ((b :: r) :: a') x cs' (length (enc_rune c) + p)) as Hj.
      replace (((b :: r) :: a') ++ x :: cs') with ((b :: r) :: (a' ++ [x]) ++ cs') in Hj by (cbn [app]; rewrite <- app_assoc; reflexivity).
      replace (concat ((b :: r) :: a') ++ x) with q in Hj by (unfold q; cbn [concat]; rewrite concat_app; cbn [concat]; rewrite app_nil_r, <- app_assoc; reflexivity).
      destruct Hj as [H1 H2].
      * destruct (le_lt_dec (length (enc_rune c)) (length (concat ((b :: r) :: a')))) as [Hle|Hlt]; [|lia]. exfalso.
        assert (Hpre : exists z, concat ((b :: r) :: a') = enc_rune c ++ z).
        { assert (Hz : q = concat ((b :: r) :: a') ++ x).
          { unfold q. cbn [concat]. rewrite concat_app. cbn [concat]. rewrite app_nil_r, <- app_assoc. reflexivity. }
          rewrite Hq in Hz. apply app_eq_app in Hz as (w & [[Hw _]|[Hw _]]).
          - exists []. rewrite app_nil_r. rewrite Hw, app_length in Hle. destruct w; cbn in Hle; [rewrite app_nil_r in Hw; auto|lia].
          - exists w. exact Hw. }
        destruct Hpre as (z & Hz). cbn [concat] in Hz. rewrite Hz, full_enc in Hn by auto. discriminate.
      * split; auto.
Qed.

Lemma parse1_chr c : scalar c -> c < 128 -> c <> 27 -> parse1 c = hd_error (char_msgs c).
Proof.
  intros Hs Hc H27. unfold scalar in Hs. unfold parse1, char_msgs.
  destruct ((c =? 13) || (c =? 10)) eqn:E1; [reflexivity|].
  destruct (c =? 127) eqn:E2; [reflexivity|]. cbn [orb].
  destruct (c =? 8) eqn:E3; [reflexivity|].
  destruct (c =? 9) eqn:E4; [reflexivity|].
  replace (c =? 27) with false by lia.
  destruct (c =? 32) eqn:E6; [reflexivity|].
  destruct ((1 <=? c) && (c <=? 26)) eqn:E7.
  - match goal with |- context [if ?b then Some (ctrl_key _) else _] => replace b with true by lia end.
    cbn [hd_error]. unfold ctrl_key. f_equal. f_equal. lia.
  - cbn [andb]. destruct (c <? 32) eqn:E8.
    + replace ((32 <=? c) && (c <=? 126)) with false by lia. reflexivity.
    + replace ((32 <=? c) && (c <=? 126)) with true by lia. reflexivity.
Qed.

(** One keystroke at the front of a state. *)
Lemma read_chr s c rest : scalar c -> c <> 27 -> pending s = enc_rune c ++ rest ->
  exists s', read s = Some (hd_error (char_msgs c), s') /\ pending s' = rest /\
    forall p, (0 < p)%nat -> boundary (lst s') p <-> boundary (lst s) (length (enc_rune c) + p).
Proof.
  intros Hc H27 Hp. change (pending s) with (concat (lst s)) in Hp.
  destruct (enc_rune c) as [|b t] eqn:Ec; [exfalso; apply (enc_rune_ne c); exact Ec|].
  destruct (first_read _ _ _ Hp) as (e & r & cs & Hl & He).
  assert (Hb : forall p, boundary (lst s) p <-> boundary ((b :: r) :: cs) p) by (intros p; rewrite Hl; apply boundary_skip; auto).
  assert (Hp' : concat ((b :: r) :: cs) = enc_rune c ++ rest) by (rewrite Hl, concat_app, He in Hp; rewrite Ec; exact Hp).
  unfold read. rewrite (read_byte_first s e b r cs Hl He).
  destruct (Z.ltb_spec c 128) as [Hlt|Hge].
  - unfold enc_rune in Ec, Hp'. replace (c <? 128) with true in Ec, Hp' by lia. injection Ec as <- <-.
    replace (c =? 27) with false by lia. cbn [parse_key]. cbn [app concat] in Hp'. injection Hp' as Hp'.
    assert (Hr : flat1 (c :: rest) = (hd_error (char_msgs c), rest) /\ parse1 c = hd_error (char_msgs c)).
    { split.
      - unfold flat1. replace (c <? 128) with true by lia. f_equal. apply parse1_chr; auto.
      - apply parse1_chr; auto. }
    destruct Hr as [_ Hr]. exists (RS r cs). split; [|split].
    + rewrite Hr. destruct (hd_error (char_msgs c)) eqn:Eh; [reflexivity|].
      replace (128 <=? c) with false by lia. destruct ((32 <=? c) && (c <=? 126)) eqn:E3; [|reflexivity].
      exfalso. revert Eh. unfold char_msgs. repeat match goal with |- context [if ?x then _ else _] => destruct x eqn:?; try discriminate end. lia.
    + exact Hp'.
    + intros p Hp0. rewrite Hb. symmetry. exact (boundary_drop [c] r cs p Hp0).
  - assert (Hb128 : 128 <= b).
    { pose proof (enc_rune_high c ltac:(lia) Hc) as Hh. rewrite Ec in Hh. inversion Hh; auto. }
    replace (b =? 27) with false by lia. cbn [parse_key].
    assert (Ep : parse1 b = None) by (destruct (parse1 b) eqn:Ep; auto; apply parse1_spec in Ep; inversion Ep; lia).
    rewrite Ep. replace (128 <=? b) with true by lia. cbn [buf chunks].
    destruct (read_rune_char b r cs c rest Hc Hp') as (s' & Hrd & Hps & Hbd). rewrite Hrd.
    exists s'. split; [|split]; auto.
    + f_equal. f_equal. unfold char_msgs. replace ((c =? 13) || (c =? 10)) with false by lia.
      replace ((c =? 127) || (c =? 8)) with false by lia. replace (c =? 9) with false by lia.
      replace (c =? 32) with false by lia. replace ((1 <=? c) && (c <=? 26)) with false by lia.
      replace (c <? 32) with false by lia. reflexivity.
    + intros p Hp0. rewrite Hb, <- Ec. auto.
Qed.

Lemma read_seq s b t m rest : (forall q cs, read (RS ((b :: t) ++ q) cs) = Some (m, RS q cs)) -> pending s = (b :: t) ++ rest ->
  (forall p, (0 < p < length (b :: t))%nat -> ~ boundary (lst s) p) ->
  exists s', read s = Some (m, s') /\ pending s' = rest /\
    forall p, (0 < p)%nat -> boundary (lst s') p <-> boundary (lst s) (length (b :: t) + p).
Proof.
  intros Hd Hp Hno. change (pending s) with (concat (lst s)) in Hp. cbn [app] in Hp.
  destruct (first_read _ _ _ Hp) as (e & r & cs & Hl & He).
  assert (Hb : forall p, boundary (lst s) p <-> boundary ((b :: r) :: cs) p) by (intros p; rewrite Hl; apply boundary_skip; auto).
  assert (Hp' : concat ((b :: r) :: cs) = (b :: t) ++ rest) by (rewrite Hl, concat_app, He in Hp; exact Hp).
  assert (Hq : exists q, b :: r = (b :: t) ++ q).
  { cbn [concat] in Hp'. apply app_eq_app in Hp' as (w & [[H _]|[H _]]); [exists w; exact H|].
    destruct w as [|x w]; [exists []; rewrite app_nil_r in *; auto|]. exfalso.
    apply (Hno (length (b :: r))).
    - rewrite H, app_length. cbn [length]. lia.
    - apply Hb. exists [b :: r], cs. cbn [concat app]. rewrite app_nil_r. auto. }
  destruct Hq as (q & Hq).
  exists (RS q cs). split; [|split].
  - rewrite <- (Hd q cs). rewrite <- Hq. unfold read.
    rewrite (read_byte_first s e b r cs Hl He). reflexivity.
  - cbn [concat] in Hp'. rewrite Hq, <- app_assoc in Hp'. apply app_inv_head in Hp'. exact Hp'.
  - intros p Hp0. rewrite Hb, Hq. symmetry. apply boundary_drop; auto.
Qed.

Lemma take_esc_csi n ps f rest : Forall (fun b => 32 <= b <= 63) ps -> final_ok f -> (length ps < n)%nat ->
  take_esc n (ps ++ f :: rest) = (ps ++ [f], rest).
Proof.
  intros Hp Hf. revert n. induction Hp as [|b ps Hb Hp IH]; intros n Hn; (destruct n as [|n]; [cbn in Hn; lia|]); cbn [app take_esc].
  - assert (is_term f = true) as -> by (unfold is_term, final_ok in *; lia). reflexivity.
  - assert (is_term b = false) as -> by (unfold is_term; lia). rewrite IH by (cbn in Hn; lia). reflexivity.
Qed.

(** An unknown sequence is consumed whole and gives no message. *)
Lemma read_unknown ps f : stroke_ok (Unk ps f) -> forall q cs, read (RS (csi ps f ++ q) cs) = Some (None, RS q cs).
Proof.
  intros (Hp & Hf & Hl & Hk) q cs. unfold csi in *. cbn [app length] in *. rewrite app_length in Hl. cbn [length] in Hl.
  unfold read. cbn [read_byte buf chunks]. cbn [Z.eqb Pos.eqb].
  change (take_esc 10 (91 :: (ps ++ [f]) ++ q)) with (let '(t, rest) := take_esc 9 ((ps ++ [f]) ++ q) in (91 :: t, rest)).
  rewrite <- app_assoc. cbn [app]. rewrite take_esc_csi by (auto; lia).
  assert (En : parse_key (27 :: 91 :: ps ++ [f]) = None).
  { destruct (parse_key (27 :: 91 :: ps ++ [f])) as [k|] eqn:E; auto. exfalso. apply parse_key_spec in E as [(b & Hb & _)|[Hin|Hin]].
    - discriminate.
    - exact (Hk k Hin).
    - cbn [ss3_keys In] in Hin. decompose [or] Hin; try contradiction; match goal with X : _ = _ |- _ => injection X as X _ end; discriminate. }
  rewrite En. reflexivity.
Qed.

Lemma read_esc s rest : pending s = 27 :: rest -> boundary (lst s) 1 ->
  exists s', read s = Some (Some (plain KEsc), s') /\ pending s' = rest /\
    forall p, (0 < p)%nat -> boundary (lst s') p <-> boundary (lst s) (1 + p).
Proof.
  intros Hp Hyes. change (pending s) with (concat (lst s)) in Hp.
  destruct (first_read _ _ _ Hp) as (e & r & cs & Hl & He).
  assert (Hb : forall p, boundary (lst s) p <-> boundary ((27 :: r) :: cs) p) by (intros p; rewrite Hl; apply boundary_skip; auto).
  assert (Hp' : concat ((27 :: r) :: cs) = 27 :: rest) by (rewrite Hl, concat_app, He in Hp; exact Hp).
  assert (Hr : r = []).
  { apply Hb in Hyes as (a & b & Hab & Hlen). destruct a as [|x a]; cbn [app concat length] in *; [lia|].
    injection Hab as <- ->. rewrite app_length in Hlen. cbn [length] in Hlen. destruct r; cbn [length] in *; [auto|lia]. }
  subst r. exists (RS [] cs). split; [|split].
  - unfold read. rewrite (read_byte_first s e 27 [] cs Hl He). reflexivity.
  - cbn [concat app] in Hp'. injection Hp' as Hp'. exact Hp'.
  - intros p Hp0. rewrite Hb. symmetry. exact (boundary_drop [27] [] cs p Hp0).
Qed.

Definition fits (ks : list stroke) (l : list (list Z)) : Prop :=
  forall pre k post, ks = pre ++ k :: post ->
    match k with
    | Chr _ => True
    | Fun _ _ | Unk _ _ => forall p, (0 < p < length (stroke_bytes k))%nat -> ~ boundary l (length (flat_map stroke_bytes pre) + p)
    | Esc => boundary l (length (flat_map stroke_bytes pre) + 1)
    end.

Lemma fits_tail k ks l l' : fits (k :: ks) l ->
  (forall p, (0 < p)%nat -> boundary l' p <-> boundary l (length (stroke_bytes k) + p)) -> fits ks l'.
Proof.
  intros Hf Hb pre k' post ->. specialize (Hf (k :: pre) k' post eq_refl). cbn [flat_map] in Hf. rewrite app_length in Hf.
  destruct k'; auto.
  - intros p Hp Hbd. apply (Hf p Hp). rewrite <- Nat.add_assoc. apply Hb; [lia|auto].
  - apply Hb; [lia|]. rewrite Nat.add_assoc. auto.
  - intros p Hp Hbd. apply (Hf p Hp). rewrite <- Nat.add_assoc. apply Hb; [lia|auto].
Qed.

Lemma read_all_strokes ks : forall fuel s, Forall stroke_ok ks -> pending s = flat_map stroke_bytes ks -> fits ks (lst s) ->
  (length (pending s) < fuel)%nat -> read_all fuel s = flat_map stroke_msgs ks.
Proof.
  induction ks as [|k ks IH]; intros fuel s Hok Hp Hf Hn; (destruct fuel as [|fuel]; [lia|]); cbn [read_all flat_map] in *.
  - unfold read. pose proof (read_byte_spec s) as H. destruct (read_byte s) as [[b s']|]; [congruence|reflexivity].
  - inversion Hok as [|? ? Hk Hks]; subst.
    assert (Hstep : exists s', read s = Some (hd_error (stroke_msgs k), s') /\ pending s' = flat_map stroke_bytes ks /\
      forall p, (0 < p)%nat -> boundary (lst s') p <-> boundary (lst s) (length (stroke_bytes k) + p)).
    { specialize (Hf [] k ks eq_refl). cbn [flat_map length Nat.add] in Hf. destruct k as [c|d k| |ps f]; cbn [stroke_bytes stroke_msgs hd_error] in *.
      - cbn [stroke_ok] in Hk. apply read_chr; tauto.
      - destruct d as [|b t]; [cbn in Hk; intuition discriminate|]. apply (read_seq s b t); auto. intros q cs. exact (csi_delivered _ _ Hk q cs).
      - apply read_esc; auto.
      - unfold csi in *. apply read_seq; auto. intros q cs. exact (read_unknown ps f Hk q cs). }
    destruct Hstep as (s' & Hr & Hps & Hb). rewrite Hr.
    assert (Hne : (0 < length (stroke_bytes k))%nat).
    { destruct k as [c|d k| |ps f]; cbn [stroke_bytes stroke_ok] in *; [|destruct d; [cbn in Hk; intuition discriminate|cbn; lia]|cbn; lia|cbn; lia].
      pose proof (enc_rune_ne c). destruct (enc_rune c); [congruence|cbn; lia]. }
    assert (IH' : read_all fuel s' = flat_map stroke_msgs ks).
    { apply IH; auto; [eapply fits_tail; eauto|]. rewrite Hps. rewrite Hp, app_length in Hn. lia. }
    assert (Hs1 : stroke_msgs k = [] \/ exists m, stroke_msgs k = [m]).
    { destruct k; cbn [stroke_msgs]; eauto. unfold char_msgs. repeat match goal with |- context [if ?b then _ else _] => destruct b; eauto end. }
    destruct Hs1 as [->|(m & ->)]; cbn [hd_error app]; rewrite IH'; reflexivity.
Qed.

Lemma boundary_nil l p : boundary ([] :: l) p <-> boundary l p.
Proof. exact (boundary_skip [[]] l p eq_refl). Qed.

(** ** C283 *)
Theorem C283_keystrokes_delivered : forall ks reads,
  Forall stroke_ok ks -> arrives ks reads -> delivered reads = flat_map stroke_msgs ks.
Proof.
  intros ks reads Hok [Hc Ha]. unfold delivered. apply read_all_strokes; auto.
  - intros pre k post Hk. specialize (Ha pre k post Hk). cbn zeta in Ha. destruct k; auto.
    + intros p Hp Hb. apply (Ha p Hp). apply boundary_nil. exact Hb.
    + apply boundary_nil. exact Ha.
    + intros p Hp Hb. apply (Ha p Hp). apply boundary_nil. exact Hb.
Qed.

Lemma fits_groups groups : Forall (fun g => forall pre post, g = pre ++ Esc :: post -> post = []) groups ->
  fits (concat groups) (map (flat_map stroke_bytes) groups).
Proof.
  induction groups as [|g gs IH]; intros He pre k post Hk; cbn [concat map] in *.
  - destruct pre; discriminate.
  - inversion He as [|? ? Hg Hgs]; subst. specialize (IH Hgs).
    assert (Hc : (exists pre2, pre = g ++ pre2 /\ concat gs = pre2 ++ k :: post) \/ exists w, g = pre ++ k :: w).
    { apply app_eq_app in Hk as (w & [[Hw Hk]|[Hw Hk]]).
      - destruct w as [|x w]; [left; exists []; rewrite app_nil_r in *; auto|]. right. cbn [app] in Hk. injection Hk as -> _. exists w. exact Hw.
      - left. exists w. auto. }
    destruct Hc as [(pre2 & -> & Hk2)|(w & ->)].
    + specialize (IH pre2 k post Hk2). rewrite flat_map_app, app_length.
      pose proof (boundary_drop (flat_map stroke_bytes g) [] (map (flat_map stroke_bytes) gs)) as Hd. rewrite app_nil_r in Hd.
      destruct k; auto.
      * intros p Hp Hb. apply (IH p Hp). apply boundary_nil. apply Hd; [lia|]. rewrite Nat.add_assoc. exact Hb.
      * rewrite <- Nat.add_assoc. apply Hd; [lia|]. apply boundary_nil. exact IH.
      * intros p Hp Hb. apply (IH p Hp). apply boundary_nil. apply Hd; [lia|]. rewrite Nat.add_assoc. exact Hb.
    + destruct k; auto.
      * intros p Hp (a & b & Hab & Hlen). destruct a as [|x a]; cbn [app concat length] in *; [lia|]. injection Hab as <- _.
        rewrite flat_map_app in Hlen. cbn [flat_map stroke_bytes] in *. rewrite !app_length in Hlen. lia.
      * exists [flat_map stroke_bytes (pre ++ Esc :: w)], (map (flat_map stroke_bytes) gs). split; [reflexivity|].
        rewrite (Hg pre w eq_refl). cbn [concat]. rewrite app_nil_r, flat_map_app, app_length. reflexivity.
      * intros p Hp (a & b & Hab & Hlen). destruct a as [|x a]; cbn [app concat length] in *; [lia|]. injection Hab as <- _.
        rewrite flat_map_app in Hlen. cbn [flat_map stroke_bytes] in *. rewrite !app_length in Hlen. lia.
Qed.

(** In particular: when every read holds whole keystrokes and Esc is the last of its
    read, each keystroke is delivered. *)
Theorem C283_whole_keystrokes : forall groups : list (list stroke),
  Forall (Forall stroke_ok) groups ->
  Forall (fun g => forall pre post, g = pre ++ Esc :: post -> post = []) groups ->
  delivered (map (flat_map stroke_bytes) groups) = flat_map stroke_msgs (concat groups).
Proof.
  intros groups Hok Hesc. apply C283_keystrokes_delivered.
  - rewrite Forall_concat. exact Hok.
  - split.
    + clear Hok Hesc. induction groups as [|g gs IH]; [reflexivity|]. cbn [map concat]. rewrite flat_map_app, IH. reflexivity.
    + intros pre k post Hk. exact (fits_groups groups Hesc pre k post Hk).
Qed.

(** A case: "h", the euro sign split between two reads, Left, Enter, Esc, "x". *)
Example C283_case : let ks := [Chr 104; Chr 8364; Fun [27; 91; 68] (plain KLeft); Chr 13; Esc; Chr 120] in
  let reads := [[104; 226]; [130]; [172; 27; 91; 68; 13; 27]; []; [120]] in
  Forall stroke_ok ks /\ arrives ks reads /\
  flat_map stroke_msgs ks = [rune_key 104; rune_key 8364; plain KLeft; plain KEnter; plain KEsc; rune_key 120].
Proof.
  cbn zeta. split; [|split; [|reflexivity]].
  - repeat constructor; try (cbn; lia); unfold scalar; lia.
  - split; [reflexivity|]. intros pre k post Hk.
    destruct pre as [|a0 pre]; [injection Hk as <- <-; exact Logic.I|]. injection Hk as <- Hk.
    destruct pre as [|a1 pre]; [injection Hk as <- <-; exact Logic.I|]. injection Hk as <- Hk.
    destruct pre as [|a2 pre].
    { injection Hk as <- <-. intros i p Hp (a & b & Hab & Hl). subst i. cbn in Hl, Hp.
      destruct a as [|x0 a]; cbn [app] in Hab; [cbn in Hl; lia|]. injection Hab as <- Hab.
      destruct a as [|x1 a]; cbn [app] in Hab; [cbn in Hl; lia|]. injection Hab as <- Hab.
      destruct a as [|x2 a]; cbn [app] in Hab; [cbn in Hl; lia|]. injection Hab as <- Hab. cbn in Hl. lia. }
    injection Hk as <- Hk.
    destruct pre as [|a3 pre]; [injection Hk as <- <-; exact Logic.I|]. injection Hk as <- Hk.
    destruct pre as [|a4 pre].
    { injection Hk as <- <-. exists [[104; 226]; [130]; [172; 27; 91; 68; 13; 27]], [[]; [120]]. auto. }
    injection Hk as <- Hk.
    destruct pre as [|a5 pre]; [injection Hk as <- <-; exact Logic.I|]. injection Hk as <- Hk. destruct pre; discriminate.
Qed.

(** ** C287 *)
(** One unknown sequence, alone or between other keystrokes, gives no message and takes nothing else with it. *)
Theorem C287_unknown_sequences_swallowed : forall ps f before after,
  Forall stroke_ok (before ++ Unk ps f :: after) ->
  forall reads, arrives (before ++ Unk ps f :: after) reads ->
  delivered reads = flat_map stroke_msgs before ++ flat_map stroke_msgs after.
Proof.
  intros ps f before after Hok reads Ha. rewrite (C283_keystrokes_delivered _ _ Hok Ha), flat_map_app. reflexivity.
Qed.
(** Cases: Ctrl+Left (ESC [1;5D), F15 (ESC [28~) and a short mouse report (ESC [<0;1;1M). *)
Example C287_case : Forall stroke_ok [Chr 97; Unk [49; 59; 53] 68; Unk [50; 56] 126; Unk [60; 48; 59; 49; 59; 49] 77; Chr 98] /\
  arrives [Chr 97; Unk [49; 59; 53] 68; Chr 98] [[97; 27; 91; 49; 59; 53; 68; 98]].
Proof.
  split.
  - assert (Hu : forall ps f, forallb (fun b => (32 <=? b) && (b <=? 63)) ps = true -> final_ok f -> (length (csi ps f) <= 11)%nat ->
      forallb (fun dk => negb (if list_eq_dec Z.eq_dec (fst dk) (csi ps f) then true else false)) csi_keys = true -> stroke_ok (Unk ps f)).
    { intros ps f H1 H2 H3 H4. rewrite forallb_forall in H1, H4. split; [|split; [exact H2|split; [exact H3|]]].
      - rewrite Forall_forall. intros b Hb. specialize (H1 b Hb). lia.
      - intros k Hin. specialize (H4 _ Hin). cbn [fst] in H4. destruct (list_eq_dec _ _ _); [discriminate|congruence]. }
    repeat apply Forall_cons; try apply Forall_nil; try (apply Hu; [reflexivity|unfold final_ok; lia|cbn; lia|vm_compute; reflexivity]); cbn [stroke_ok]; unfold scalar; lia.
  - split; [reflexivity|]. intros pre k post Hk.
    destruct pre as [|a0 pre]; [injection Hk as <- <-; exact Logic.I|]. injection Hk as <- Hk.
    destruct pre as [|a1 pre].
    { injection Hk as <- <-. intros i p Hp (a & b & Hab & Hl). subst i. cbn in Hl, Hp.
      destruct a as [|x0 a]; cbn [app] in Hab; [cbn in Hl; lia|]. injection Hab as <- Hab.
      destruct a; [|discriminate]. cbn in Hl. lia. }
    injection Hk as <- Hk.
    destruct pre as [|a2 pre]; [injection Hk as <- <-; exact Logic.I|]. injection Hk as <- Hk. destruct pre; discriminate.
Qed.

(** ** C288 *)
(** A mouse report: button, column and row in decimal, press or release (xterm's SGR encoding). *)
Definition mouse_report (b x y : Z) (press : bool) : list Z :=
  [27; 91; 60] ++ dec b ++ [59] ++ dec x ++ [59] ++ dec y ++ [if press then 77 else 109].
(** Refuted even for a report arriving whole: a left click in column 100, row 50 is the letter M typed. *)
Theorem C288_mouse_reports_no_text_refuted : ~ forall b x y press, 0 <= b -> 1 <= x -> 1 <= y -> delivered [mouse_report b x y press] = [].
Proof. intros H. specialize (H 0 100 50 true ltac:(lia) ltac:(lia) ltac:(lia)). vm_compute in H. discriminate. Qed.
(** It holds for the reports of at most 11 bytes. *)
Theorem C301_short_mouse_reports : forall b x y press, 0 <= b -> 0 <= x -> 0 <= y -> (length (mouse_report b x y press) <= 11)%nat ->
  delivered [mouse_report b x y press] = [].
Proof.
  intros b x y press Hb Hx Hy Hl.
  set (ps := [60] ++ dec b ++ [59] ++ dec x ++ [59] ++ dec y). set (f := if press then 77 else 109).
  assert (Er : mouse_report b x y press = csi ps f).
  { unfold mouse_report, csi, ps, f. cbn [app]. do 3 f_equal. rewrite <- !app_assoc. cbn [app]. rewrite <- !app_assoc. reflexivity. }
  rewrite Er in *.
  assert (Hd : forall v, 0 <= v -> Forall (fun c => 32 <= c <= 63) (dec v)).
  { intros v Hv. destruct (dec_spec v Hv) as (_ & D & _). rewrite forallb_forall in D. rewrite Forall_forall. intros c Hc. specialize (D c Hc). unfold is_digit in D. lia. }
  assert (Hok : stroke_ok (Unk ps f)).
  { split; [|split; [|split; [exact Hl|]]].
    - unfold ps. rewrite !Forall_app. repeat split; auto; repeat constructor; lia.
    - unfold f, final_ok. destruct press; lia.
    - intros k Hin. unfold csi, ps in Hin. cbn [app] in Hin. clear -Hin. cbn [csi_keys In] in Hin. decompose [or] Hin; try contradiction; discriminate. }
  pose proof (C283_whole_keystrokes [[Unk ps f]]) as C. cbn [map flat_map app stroke_bytes concat stroke_msgs] in C. rewrite app_nil_r in C. apply C.
  - constructor; [constructor; [exact Hok|constructor]|constructor].
  - constructor; [|constructor]. intros pre post He. destruct pre as [|? [|? ?]]; discriminate.
Qed.
Example C288_case : (length (mouse_report 0 10 5 true) <= 11)%nat /\ delivered [mouse_report 0 100 50 true] = [rune_key 77].
Proof. vm_compute. auto. Qed.

Print Assumptions C283_keystrokes_delivered. Print Assumptions C283_whole_keystrokes. Print Assumptions C287_unknown_sequences_swallowed. Print Assumptions C288_mouse_reports_no_text_refuted.
Print Assumptions C301_short_mouse_reports.
