(** RTF and HTML as other programs read and write them. *)
From Coq Require Import String.
From Verif Require Import RtModel RtProofs RtHtmlProps RtRtfProofs RtRtfProps RtReaderSpec.
Local Open Scope list_scope.
Local Open Scope Z_scope.

(* ---------- C210 ---------- *)
(** The colour of a style as three bytes: its hexadecimal digits in pairs. *)
Definition style_rgb (s : styles) : option (Z * Z * Z) :=
  match color s with [_; a; b; c; d; e; f] => Some (16 * hexval a + hexval b, 16 * hexval c + hexval d, 16 * hexval e + hexval f) | _ => None end.
Lemma num_end w neg f d it st x tb sk o : forall ds v, forallb is_digit ds = true ->
  fold_left step ds (R (MNum w neg v) f d it st x tb sk o) = R (MNum w neg (undec_acc v ds)) f d it st x tb sk o.
Proof.
  induction ds as [|c ds IH]; intros v D; [reflexivity|]. cbn [forallb] in D. apply andb_prop in D as [D1 D2]. cbn [fold_left]. unfold step at 2. cbn [rmode]. rewrite D1. unfold set_mode. cbn [rfmt dest intab stack rgb tab skip out]. rewrite IH by auto. reflexivity.
Qed.
Lemma word_num w f d it st x tb sk o n : 0 <= n -> fold_left step (dec n) (R (MWord w) f d it st x tb sk o) = R (MNum w false n) f d it st x tb sk o.
Proof.
  intros N. destruct (dec_spec n N) as (NE & D & _). pose proof (dec_undec n N) as U. destruct (dec n) as [|c ds]; [congruence|]. cbn [forallb] in D. apply andb_prop in D as [D1 D2]. cbn [fold_left]. unfold step at 2. cbn [rmode].
  assert (L : letter c = false) by (unfold letter, is_digit in *; lia). assert (M : c =? 45 = false) by (unfold is_digit in D1; lia). rewrite L, M, D1. unfold set_mode. cbn [rfmt dest intab stack rgb tab skip out]. rewrite num_end by auto. f_equal. f_equal. rewrite <- U. reflexivity.
Qed.
Lemma one_rune f st x tb o r : 0 <= r <= 32767 ->
  fold_left step (rtf_rune r) (R MText f false false st x tb 0 o) = R MText f false false st x tb 0 (o ++ if r =? 13 then [] else [(r, f)]).
Proof.
  intros H. unfold rtf_rune. destruct (r =? 92) eqn:E1; [replace r with 92 by lia; reflexivity|]. destruct (r =? 123) eqn:E2; [replace r with 123 by lia; reflexivity|]. destruct (r =? 125) eqn:E3; [replace r with 125 by lia; reflexivity|].
  destruct (r =? 10) eqn:E4; [replace r with 10 by lia; reflexivity|]. destruct (r =? 13) eqn:E5; [rewrite app_nil_r; reflexivity|]. destruct (127 <? r) eqn:E6.
  - change (B "\u" ++ dec r ++ B "?") with ([92; 117] ++ dec r ++ [63]). rewrite !fold_left_app.
    change (fold_left step [92; 117] (R MText f false false st x tb 0 o)) with (R (MWord [117]) f false false st x tb 0 o). rewrite word_num by lia.
    cbn [fold_left]. unfold step. cbn [rmode]. change (is_digit 63) with false. cbv iota. unfold set_mode. cbn [rfmt dest intab stack rgb tab skip out].
    change (ctrl [117] (Some r) (R MText f false false st x tb 0 o)) with (one_skip (emit (r mod 65536) (R MText f false false st x tb 0 o))). rewrite Z.mod_small by lia. reflexivity.
  - cbn [fold_left]. unfold step. cbn [rmode]. unfold text_step. rewrite E1, E2, E3, E4, E5. reflexivity.
Qed.
Lemma all_runes f st x tb : forall rs o, Forall (fun r => 0 <= r <= 32767) rs ->
  fold_left step (flat_map rtf_rune rs) (R MText f false false st x tb 0 o) = R MText f false false st x tb 0 (o ++ map (fun r => (r, f)) (filter (fun r => negb (r =? 13)) rs)).
Proof.
  induction rs as [|r rs IH]; intros o F; [rewrite app_nil_r; reflexivity|]. inversion_clear F as [|? ? F1 F2]. cbn [flat_map]. rewrite fold_left_app, one_rune by auto. rewrite IH by auto. rewrite <- app_assoc. cbn [filter]. destruct (r =? 13); reflexivity.
Qed.
Lemma read_table f st r g b o : 0 <= r -> 0 <= g -> 0 <= b ->
  fold_left step (table r g b) (R MText f false false st (0, 0, 0) [] 0 o) = R MText f false false st (0, 0, 0) [(0, 0, 0); (r, g, b)] 0 o.
Proof.
  intros HR HG HB. unfold table. rewrite !fold_left_app.
  change (fold_left step (B "{\colortbl ;\red") (R MText f false false st (0, 0, 0) [] 0 o)) with (R (MWord (B "red")) f true true ((f, false, false) :: st) (0, 0, 0) [(0, 0, 0)] 0 o). rewrite word_num by auto.
  change (fold_left step (B "\green") (R (MNum (B "red") false r) f true true ((f, false, false) :: st) (0, 0, 0) [(0, 0, 0)] 0 o)) with (R (MWord (B "green")) f true true ((f, false, false) :: st) (r, 0, 0) [(0, 0, 0)] 0 o). rewrite word_num by auto.
  change (fold_left step (B "\blue") (R (MNum (B "green") false g) f true true ((f, false, false) :: st) (r, 0, 0) [(0, 0, 0)] 0 o)) with (R (MWord (B "blue")) f true true ((f, false, false) :: st) (r, g, 0) [(0, 0, 0)] 0 o). rewrite word_num by auto.
  reflexivity.
Qed.
(** A program that follows the RTF specification shows exactly the text, every character with the style and nothing else, carriage returns
    left out, when no character is above 32767. *)
Theorem C210_readable : forall t s, t <> [] -> good_style s -> Forall (fun r => 0 <= r <= 32767) (runes_of t) ->
  exists doc, encode_rtf t s = Some doc /\
    read_rtf doc = map (fun c => (c, (bold s, italic s, underline s, style_rgb s))) (filter (fun c => negb (c =? 13)) (runes_of t)).
Proof.
  intros t s NE G FR. exists (enc_of t s (rtf_escape t)). split; [apply encode_shape; auto|].
  unfold read_rtf, enc_of, rtf_escape. set (rs := runes_of t) in *. clearbody rs.
  assert (PC : color s <> [] -> style_rgb s = Some (parse_rgb (color s))).
  { destruct G as [G|(a & b & c & d & e & f & G & FH)]; intros NC; [congruence|]. unfold style_rgb. rewrite G.
    inversion_clear FH as [|? ? Ha F1]. inversion_clear F1 as [|? ? Hb F2]. inversion_clear F2 as [|? ? Hc F3]. inversion_clear F3 as [|? ? Hd F4]. inversion_clear F4 as [|? ? He F5]. inversion_clear F5 as [|? ? Hf F6].
    apply hex_up in Ha as [Ra _]. apply hex_up in Hb as [Rb _]. apply hex_up in Hc as [Rc _]. apply hex_up in Hd as [Rd _]. apply hex_up in He as [Re _]. apply hex_up in Hf as [Rf _].
    unfold parse_rgb. cbn [tl fold_left]. set (x1 := hexval a) in *. set (x2 := hexval b) in *. set (x3 := hexval c) in *. set (x4 := hexval d) in *. set (x5 := hexval e) in *. set (x6 := hexval f) in *. clearbody x1 x2 x3 x4 x5 x6. clear -Ra Rb Rc Rd Re Rf.
    change 255 with (Z.ones 8). rewrite !Z.land_ones by lia. rewrite !Z.shiftr_div_pow2 by lia. change (2 ^ 8) with 256. change (2 ^ 16) with 65536.
    set (v := 16 * (16 * _ + x5) + x6). assert (V : v = ((((x1 * 16 + x2) * 16 + x3) * 16 + x4) * 16 + x5) * 16 + x6) by (unfold v; lia). clearbody v.
    assert (Q1 : (v / 65536) mod 256 = 16 * x1 + x2) by lia. assert (Q2 : (v / 256) mod 256 = 16 * x3 + x4) by lia. assert (Q3 : v mod 256 = 16 * x5 + x6) by lia. rewrite Q1, Q2, Q3. reflexivity. }
  pose proof (parse_range (color s)) as PR. destruct (parse_rgb (color s)) as [[r g] b]. destruct PR as (R1 & R2 & R3).
  assert (NC : color s = [] -> style_rgb s = None) by (intros E; unfold style_rgb; rewrite E; reflexivity).
  rewrite !fold_left_app. set (f0 := F false false false 0).
  change (fold_left step [10] (fold_left step rtf_header rd0)) with (R MText f0 false false [(f0, false, false)] (0, 0, 0) [] 0 []).
  destruct (color s) as [|h cs]; cbv iota.
  - rewrite (NC eq_refl). cbn [fold_left].
    assert (PRE : fold_left step (pre (bold s) (italic s) (underline s) false) (R MText f0 false false [(f0, false, false)] (0, 0, 0) [] 0 []) = R MText (F (bold s) (italic s) (underline s) 0) false false [(f0, false, false)] (0, 0, 0) [] 0 []) by (destruct (bold s), (italic s), (underline s); reflexivity).
    rewrite PRE, all_runes by auto. cbn [app]. set (o := map _ _). 
    assert (POST : exists st f, fold_left step [125] (step (fold_left step (post (bold s) (italic s) (underline s) false) (R MText (F (bold s) (italic s) (underline s) 0) false false [(f0, false, false)] (0, 0, 0) [] 0 o)) 10) = R MText f false false st (0, 0, 0) [] 0 o) by (destruct (bold s), (italic s), (underline s); eexists; eexists; reflexivity).
    cbn [fold_left] in POST. destruct POST as (st & f & ->). unfold shown, o. cbn [out tab]. rewrite map_map. reflexivity.
  - rewrite (PC ltac:(discriminate)). rewrite read_table by lia.
    assert (PRE : fold_left step (pre (bold s) (italic s) (underline s) true) (R MText f0 false false [(f0, false, false)] (0, 0, 0) [(0, 0, 0); (r, g, b)] 0 []) = R MText (F (bold s) (italic s) (underline s) 1) false false [(f0, false, false)] (0, 0, 0) [(0, 0, 0); (r, g, b)] 0 []) by (destruct (bold s), (italic s), (underline s); reflexivity).
    rewrite PRE, all_runes by auto. cbn [app]. set (o := map _ _).
    assert (POST : exists st f, fold_left step [125] (step (fold_left step (post (bold s) (italic s) (underline s) true) (R MText (F (bold s) (italic s) (underline s) 1) false false [(f0, false, false)] (0, 0, 0) [(0, 0, 0); (r, g, b)] 0 o)) 10) = R MText f false false st (0, 0, 0) [(0, 0, 0); (r, g, b)] 0 o) by (destruct (bold s), (italic s), (underline s); eexists; eexists; reflexivity).
    cbn [fold_left] in POST |- *. destruct POST as (st & f & ->). unfold shown, o. cbn [out tab]. rewrite map_map. reflexivity.
Qed.
Example C210_met : let s := St true false true [35; 97; 66; 48; 49; 50; 51] in let t := [123; 98; 92; 10; 195; 169; 13] in good_style s /\ runes_of t = [123; 98; 92; 10; 233; 13] /\
  match encode_rtf t s with Some d => read_rtf d = map (fun c => (c, (true, false, true, Some (171, 1, 35)))) [123; 98; 92; 10; 233] | None => False end.
Proof. cbv zeta. split; [right; do 6 eexists; split; [reflexivity|]; repeat (apply Forall_cons; [unfold hex; lia|]); apply Forall_nil|]. split; vm_compute; reflexivity. Qed.

(* ---------- C211 ---------- *)
(** Characters beyond the basic plane: the number written does not fit in 16 bits and such a program shows another character. *)
Theorem C211_emoji_refuted : let t := [240; 159; 152; 128] in runes_of t = [128512] /\
  match encode_rtf t plain with Some d => map fst (read_rtf d) = [62976] | None => False end.
Proof. cbv zeta. split; vm_compute; reflexivity. Qed.
Theorem C211_plane_partial : forall t s, t <> [] -> good_style s -> Forall (fun r => 0 <= r <= 32767) (runes_of t) -> match encode_rtf t s with Some d => map fst (read_rtf d) = filter (fun c => negb (c =? 13)) (runes_of t) | None => False end.
Proof. intros t s NE G F. destruct (C210_readable t s NE G F) as (d & -> & ->). rewrite map_map. apply map_id. Qed.

(* ---------- C212 ---------- *)
(** Documents of other programs: the name of a font becomes text, paragraphs run together, and a character is replaced by its substitute. *)
Theorem C212_rtf_text_refuted :
  (let d := B "{\rtf1{\fonttbl{\f0 Arial;}}hi}" in map fst (read_rtf d) = B "hi" /\ strip_rtf d = B "Arial;hi") /\
  (let d := B "{\rtf1 a\par b}" in map fst (read_rtf d) = [97; 10; 98] /\ strip_rtf d = B "ab") /\
  (let d := B "{\rtf1 caf\u233?}" in map fst (read_rtf d) = [99; 97; 102; 233] /\ strip_rtf d = B "caf?").
Proof. repeat split; vm_compute; reflexivity. Qed.
(** On what the library itself writes for a safe text the two agree. *)
Theorem C212_rtf_text_partial : forall t s, safe t -> good_style s -> Forall (fun r => 0 <= r <= 32767) (runes_of t) -> ~ In 13 (runes_of t) ->
  exists d, encode_rtf t s = Some d /\ decode_rtf d = Some (t, upper s) /\ map fst (read_rtf d) = runes_of t.
Proof.
  intros t s S G F NR. pose proof S as (NE & _). destruct (C210_readable t s NE G F) as (d & E & R). exists d. split; [auto|]. destruct (C56_style t s S G) as (d' & E' & D). rewrite E in E'. apply some_inj in E'. subst d'. split; [auto|].
  rewrite R, map_map. cbn [fst]. rewrite map_id. clear -NR. induction (runes_of t) as [|c l IH]; [reflexivity|]. cbn [filter]. destruct (c =? 13) eqn:E; [exfalso; apply NR; left; lia|]. cbn [negb]. f_equal. apply IH. intros I. apply NR. right. auto.
Qed.

(* ---------- C213 ---------- *)
(** HTML of other programs: paragraphs and line breaks run together, a '>' in an attribute or a comment ends the tag early, and styles of a
    part become the style of everything. *)
Theorem C213_html_text_refuted : forall others,
  strip_html others (B "<p>one</p><p>two</p>") = B "onetwo" /\ strip_html others (B "one<br>two") = B "onetwo" /\
  strip_html others (B "<a title=""x>y"">z</a>") = B "y"">z" /\ strip_html others (B "<!-- a > b -->c") = B " b -->c" /\ strip_html others (B "<style>p{}</style>x") = B "p{}x" /\
  match html_to_rtf others (B "a<b>b</b>") with Some d => read_rtf d = [(97, (true, false, false, None)); (98, (true, false, false, None))] | None => False end.
Proof. intros others. do 5 (split; [vm_compute; reflexivity|]). vm_compute. reflexivity. Qed.
Theorem C213_html_text_partial : forall others d, Forall ok_piece d -> strip_html others (flat_map show d) = flat_map text_of d.
Proof. exact C125_plain_text. Qed.

Print Assumptions C210_readable. Print Assumptions C211_emoji_refuted. Print Assumptions C211_plane_partial. Print Assumptions C212_rtf_text_refuted.
Print Assumptions C212_rtf_text_partial. Print Assumptions C213_html_text_refuted. Print Assumptions C213_html_text_partial.
