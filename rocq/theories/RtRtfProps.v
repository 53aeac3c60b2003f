(** C56, C124, C127: rich text through RTF. *)
From Verif Require Import RtModel RtProofs RtHtmlProps RtRtfProofs.
Local Open Scope list_scope.
Local Open Scope Z_scope.

(** The texts that survive: ASCII without backslash, braces and line breaks, not starting or ending with white space. *)
Definition ws (c : Z) : Prop := 9 <= c <= 13 \/ c = 32.
Definition safe_char (c : Z) : Prop := 0 <= c < 128 /\ ~ In c [92; 123; 125; 10; 13].
Definition safe (t : list Z) : Prop := t <> [] /\ Forall safe_char t /\ ~ ws (hd 0 t) /\ ~ ws (last t 0).
(** The style with its colour in upper case, which is the same style for TextStyles.Equals. *)
Definition up (c : Z) : Z := if (97 <=? c) && (c <=? 122) then c - 32 else c.
Definition upper (s : styles) : styles := St (bold s) (italic s) (underline s) (map up (color s)).

Lemma trim_suffix f : forall s k, exists j, trim f k s = skipn j s.
Proof.
  induction s as [|c s IH]; intros k; [exists 0%nat; reflexivity|]. cbn [trim]. destruct k as [|k]; [|destruct (IH k) as (j & ->); exists (S j); reflexivity].
  destruct (f (c :: s)) as [|k]; [exists 0%nat; reflexivity|]. destruct (IH k) as (j & ->). exists (S j). reflexivity.
Qed.
Lemma trim_stop f s : f s = 0%nat -> trim f 0 s = s.
Proof. destruct s; [reflexivity|]. intros F. cbn [trim]. rewrite F. reflexivity. Qed.
Lemma space_ascii c r : 0 <= c < 128 -> ~ ws c -> space_at (c :: r) = 0%nat /\ space_end (c :: r) = 0%nat.
Proof.
  unfold ws. intros R N. assert (E : ((9 <=? c) && (c <=? 13)) || (c =? 32) = false) by lia. split.
  - unfold space_at. rewrite E. destruct r as [|b r]; [reflexivity|]. replace (c =? 194) with false by lia. cbn [andb]. destruct r; [reflexivity|]. replace (c =? 225) with false by lia. replace (c =? 226) with false by lia. replace (c =? 227) with false by lia. reflexivity.
  - unfold space_end. rewrite E. destruct r as [|b r]; [reflexivity|]. assert (Q : (space_at [b; c] =? 2)%nat = false).
    { unfold space_at. destruct (((9 <=? b) && (b <=? 13)) || (b =? 32)); [reflexivity|]. replace (c =? 133) with false by lia. replace (c =? 160) with false by lia. rewrite andb_false_r. reflexivity. }
    rewrite Q. destruct r as [|d r]; [reflexivity|]. unfold space_at.
    destruct (((9 <=? d) && (d <=? 13)) || (d =? 32)); [reflexivity|]. destruct ((d =? 194) && ((b =? 133) || (b =? 160))); [reflexivity|].
    replace (c =? 128) with false by lia. replace ((128 <=? c) && (c <=? 138)) with false by lia. replace (c =? 168) with false by lia. replace (c =? 169) with false by lia. replace (c =? 175) with false by lia. replace (c =? 159) with false by lia.
    cbn [orb]. rewrite !andb_false_r. reflexivity.
Qed.
Lemma rev_last {A} (t : list A) d : hd d (rev t) = last t d.
Proof. induction t as [|a t IH] using rev_ind; [reflexivity|]. rewrite rev_app_distr, last_last. reflexivity. Qed.
Lemma trim_space_id t : t <> [] -> 0 <= hd 0 t < 128 -> 0 <= last t 0 < 128 -> ~ ws (hd 0 t) -> ~ ws (last t 0) -> trim_space t = t.
Proof.
  intros NE R1 R2 W1 W2. unfold trim_space. rewrite (trim_stop space_at).
  - rewrite (trim_stop space_end); [apply rev_involutive|]. rewrite <- (rev_last t 0) in R2, W2. destruct (rev t) as [|c r] eqn:E; [reflexivity|]. apply space_ascii; auto.
  - destruct t as [|c r]; [congruence|]. apply space_ascii; auto.
Qed.
Lemma trim_space_nl_front x : trim_space (10 :: x) = trim_space x.
Proof. reflexivity. Qed.
Lemma trim_space_nl_back x : incl (trim_space (x ++ [10])) x.
Proof.
  unfold trim_space. destruct (trim_suffix space_at (x ++ [10]) 0) as (j & ->). intros c I. rewrite <- in_rev in I.
  destruct (Nat.le_gt_cases j (length x)) as [L|L].
  - rewrite skipn_app_le in I by lia. rewrite rev_app_distr in I. cbn [rev app] in I. change (trim space_end 0 (10 :: rev (skipn j x))) with (trim space_end 0 (rev (skipn j x))) in I.
    destruct (trim_suffix space_end (rev (skipn j x)) 0) as (i & Q). rewrite Q in I. assert (J : In c (rev (skipn j x))) by (rewrite <- (firstn_skipn i); apply in_or_app; auto). rewrite <- in_rev in J. rewrite <- (firstn_skipn j x). apply in_or_app; auto.
  - rewrite skipn_all2 in I by (rewrite app_length; cbn; lia). destruct I.
Qed.
Lemma trim_space_incl x : incl (trim_space x) x.
Proof.
  unfold trim_space. destruct (trim_suffix space_at x 0) as (j & ->). intros c I. rewrite <- in_rev in I. destruct (trim_suffix space_end (rev (skipn j x)) 0) as (i & Q). rewrite Q in I.
  assert (J : In c (rev (skipn j x))) by (rewrite <- (firstn_skipn i); apply in_or_app; auto). rewrite <- in_rev in J. rewrite <- (firstn_skipn j x). apply in_or_app; auto.
Qed.
Lemma cut_lit1 c : forall s, cut (lit [c]) 0 s = filter (fun x => negb (x =? c)) s.
Proof. induction s as [|d s IH]; [reflexivity|]. cbn [filter].
  change (cut (lit [c]) 0 (d :: s)) with (match lit [c] (d :: s) with Some n => cut (lit [c]) (pred n) s | None => d :: cut (lit [c]) 0 s end).
  replace (lit [c] (d :: s)) with (if d =? c then Some 1%nat else None) by (unfold lit; cbn [prefix]; rewrite andb_true_r, (Z.eqb_sym c); reflexivity). destruct (d =? c); cbn [negb pred]; rewrite IH; reflexivity. Qed.
Lemma cut_no92 m x : local m -> ~ In 92 x -> cut m 0 x = x.
Proof. intros (L1 & L2 & L) N. rewrite <- (app_nil_r x) at 1. rewrite cut_id; [apply app_nil_r| |intros c r I; apply L; intros ->; auto]. destruct (m []) as [n|] eqn:E; [|reflexivity]. apply L1 in E. cbn in E. lia. Qed.
Lemma cutall_no92 x : ~ In 92 x -> cutall known x = x.
Proof.
  intros N. unfold cutall. assert (G : forall ms, (forall m, In m ms -> local m) -> fold_left (fun s m => cut m 0 s) ms x = x).
  { induction ms as [|m ms IH]; intros F; [reflexivity|]. cbn [fold_left]. rewrite cut_no92 by (auto; apply F; left; auto). apply IH. intros; apply F; right; auto. }
  apply G, known_local.
Qed.
Lemma runes_ascii t : Forall (fun c => 0 <= c < 128) t -> runes_of t = t.
Proof.
  intros F. assert (E : enc t = t). { induction F as [|c t C F IH]; [reflexivity|]. cbn [enc flat_map]. change (flat_map enc_rune t) with (enc t). rewrite IH. unfold enc_rune. replace (c <? 128) with true by lia. reflexivity. }
  rewrite <- E at 1. apply runes_of_enc. eapply Forall_impl; [|exact F]. cbv beta. intros c C. unfold scalar. lia.
Qed.
Lemma escape_safe t : Forall safe_char t -> rtf_escape t = t.
Proof.
  intros F. unfold rtf_escape. rewrite runes_ascii by (eapply Forall_impl; [|exact F]; intros c [C _]; exact C).
  induction F as [|c t C F IH]; [reflexivity|]. cbn [flat_map]. rewrite IH. destruct C as [C N]. unfold rtf_rune. cbn in N.
  destruct (c =? 92) eqn:E1; [lia|]. destruct (c =? 123) eqn:E2; [lia|]. destruct (c =? 125) eqn:E3; [lia|]. destruct (c =? 10) eqn:E4; [lia|]. destruct (c =? 13) eqn:E5; [lia|]. destruct (127 <? c) eqn:E6; [lia|reflexivity].
Qed.
Lemma safe_no t c : Forall safe_char t -> In c [92; 123; 125; 10; 13] -> ~ In c t.
Proof. intros F C I. rewrite Forall_forall in F. destruct (F c I) as [_ N]. auto. Qed.
Lemma control_no92 x : ~ In 92 x -> cut control 0 x = x.
Proof.
  intros N. rewrite <- (app_nil_r x) at 1. rewrite cut_id; [apply app_nil_r|reflexivity|]. intros c r I. assert (c <> 92) by (intros ->; auto). unfold control. destruct c as [|h|h]; try reflexivity. repeat (destruct h as [h|h|]; try reflexivity). congruence.
Qed.
Lemma filter_id {A} (p : A -> bool) l : (forall x, In x l -> p x = true) -> filter p l = l.
Proof. induction l as [|a l IH]; intros F; [reflexivity|]. cbn [filter]. rewrite F by (left; auto). f_equal. apply IH. intros; apply F; right; auto. Qed.
Lemma trim_space_nl_back_id t : t <> [] -> 0 <= hd 0 t < 128 -> 0 <= last t 0 < 128 -> ~ ws (hd 0 t) -> ~ ws (last t 0) -> trim_space (t ++ [10]) = t.
Proof.
  intros NE R1 R2 W1 W2. unfold trim_space. rewrite (trim_stop space_at).
  - rewrite rev_app_distr. cbn [rev app]. change (trim space_end 0 (10 :: rev t)) with (trim space_end 0 (rev t)). rewrite (trim_stop space_end); [apply rev_involutive|]. rewrite <- (rev_last t 0) in R2, W2. destruct (rev t) as [|c r] eqn:E; [reflexivity|]. apply space_ascii; auto.
  - destruct t as [|c r]; [congruence|]. apply space_ascii; auto.
Qed.
Lemma last_in {A} (t : list A) d : t <> [] -> In (last t d) t.
Proof. induction t as [|a t IH]; [congruence|]. intros _. destruct t as [|b t]; [left; auto|]. right. apply IH. discriminate. Qed.
Lemma strip_safe t s : safe t -> strip_rtf (enc_of t s t) = t.
Proof.
  intros (NE & F & W1 & W2). rewrite strip_shape by (apply safe_no; [auto|cbn; tauto]). rewrite cutall_no92 by (apply safe_no; [auto|cbn; tauto]).
  rewrite control_no92. 2:{ destruct (color s); rewrite !in_app_iff; intros I; pose proof (safe_no t 92 F ltac:(cbn; tauto)); cbn in I; intuition congruence. }
  change (B "{") with [123]. change (B "}") with [125]. rewrite !cut_lit1.
  rewrite (filter_id (fun x => negb (x =? 123))). 2:{ intros x I. assert (x <> 123); [|lia]. intros ->. destruct (color s); rewrite ?in_app_iff in I; pose proof (safe_no t 123 F ltac:(cbn; tauto)); cbn in I; intuition congruence. }
  rewrite !filter_app. cbn [filter negb Z.eqb Pos.eqb].
  rewrite (filter_id (fun x => negb (x =? 125)) t). 2:{ intros x I. assert (x <> 125); [|lia]. intros ->. exact (safe_no t 125 F ltac:(cbn; tauto) I). }
  rewrite Forall_forall in F. assert (HI : In (hd 0 t) t) by (destruct t; [congruence|left; auto]). pose proof (F _ HI) as [H1 _]. pose proof (F _ (last_in t 0 NE)) as [H2 _].
  destruct (color s); [|change (filter (fun x => negb (x =? 125)) [10]) with [10]; cbn [app]; rewrite trim_space_nl_front]; cbn [filter app]; apply trim_space_nl_back_id; auto.
Qed.
Lemma contains_no92 p x y : ~ In 92 x -> contains (92 :: p) (x ++ y) = contains (92 :: p) y.
Proof.
  induction x as [|c x IH]; intros N; [reflexivity|]. cbn [app contains prefix]. assert (c <> 92) by (intros ->; apply N; left; auto).
  destruct (92 =? c) eqn:E; [lia|]. cbn [andb orb]. apply IH. intros I; apply N; right; auto.
Qed.
Lemma dec_no92 n : 0 <= n -> ~ In 92 (dec n).
Proof. intros N I. pose proof (dec_digits n N) as F. rewrite Forall_forall in F. specialize (F 92 I). discriminate. Qed.
Lemma detect t s p v : ~ In 92 t -> (p = B "b " /\ v = bold s) \/ (p = B "i " /\ v = italic s) \/ (p = B "ul " /\ v = underline s) \/ (p = B "colortbl" /\ v = match color s with [] => false | _ => true end) ->
  contains (92 :: p) (enc_of t s t) = v.
Proof.
  intros N C. unfold enc_of. pose proof (parse_range (color s)) as PR. destruct (parse_rgb (color s)) as [[r g] b].
  set (c := match color s with [] => false | _ => true end) in *.
  set (body := pre (bold s) (italic s) (underline s) c ++ t ++ post (bold s) (italic s) (underline s) c ++ [10; 125]).
  assert (BO : contains (92 :: p) body = match p with 99 :: _ => false | _ => v end).
  { unfold body. destruct C as [[-> ->]|[[-> ->]|[[-> ->]|[-> ->]]]]; destruct (bold s), (italic s), (underline s), c; unfold pre, post; cbn [app]; rewrite <- ?app_assoc; cbn [app]; lits; cbn [app contains prefix Z.eqb Pos.eqb andb orb];
      try reflexivity; change (contains (92 :: ?q) (t ++ ?y)) with (contains (92 :: q) (t ++ y)); rewrite contains_no92 by auto; reflexivity. }
  assert (HD : forall y, contains (92 :: p) (rtf_header ++ [10] ++ y) = contains (92 :: p) y).
  { intros y. destruct C as [[-> _]|[[-> _]|[[-> _]|[-> _]]]]; reflexivity. }
  rewrite HD. destruct c eqn:EC; [|cbn [app]; rewrite BO; destruct C as [[-> ->]|[[-> ->]|[[-> ->]|[-> ->]]]]; reflexivity].
  assert (TB : contains (92 :: p) (table r g b ++ body) = match p with 99 :: _ => true | _ => contains (92 :: p) body end).
  { unfold table. rewrite <- !app_assoc. destruct C as [[-> _]|[[-> _]|[[-> _]|[-> _]]]]; [| | |reflexivity].
    all: match goal with |- contains ?q (?x ++ dec ?n ++ ?y) = _ => change (contains q (x ++ dec n ++ y)) with (contains q (dec n ++ y)) end; rewrite contains_no92 by (apply dec_no92; lia).
    all: match goal with |- contains ?q (?x ++ dec ?n ++ ?y) = _ => change (contains q (x ++ dec n ++ y)) with (contains q (dec n ++ y)) end; rewrite contains_no92 by (apply dec_no92; lia).
    all: match goal with |- contains ?q (?x ++ dec ?n ++ ?y) = _ => change (contains q (x ++ dec n ++ y)) with (contains q (dec n ++ y)) end; rewrite contains_no92 by (apply dec_no92; lia).
    all: reflexivity. }
  rewrite TB, BO. destruct C as [[-> ->]|[[-> ->]|[[-> ->]|[-> ->]]]]; reflexivity.
Qed.
Lemma color_none s : contains (B "\colortbl") s = false -> first_match rtf_color s = None.
Proof.
  induction s as [|c s IH]; intros N; [reflexivity|]. cbn [contains] in N. apply orb_false_iff in N as [N1 N2]. cbn [first_match]. unfold rtf_color, after. rewrite N1. apply IH, N2.
Qed.
Lemma digits_dec n y : 0 <= n -> match y with c :: _ => is_digit c = false | [] => True end -> digits_then (dec n ++ y) = Some (dec n, y).
Proof.
  intros N Y. unfold digits_then. destruct (dec_spec n N) as (NE & D & _). assert (R : run is_digit (dec n ++ y) = length (dec n)).
  { destruct y as [|c y]; [|apply run_stop; auto]. rewrite app_nil_r. clear -D. induction (dec n) as [|a l IH]; [reflexivity|]. cbn [forallb] in D. apply andb_prop in D as [D1 D2]. cbn [run length]. rewrite D1, IH; auto. }
  rewrite R. destruct (length (dec n)) eqn:L; [destruct (dec n); [congruence|discriminate]|]. rewrite <- L, firstn_len, skipn_len. reflexivity.
Qed.
Lemma after_app p y : after p (p ++ y) = Some y.
Proof. unfold after. rewrite prefix_app, skipn_len. reflexivity. Qed.
Lemma scan_dec n : 0 <= n <= 255 -> scan_int (dec n) = n.
Proof. intros N. unfold scan_int. rewrite dec_undec by lia. replace (n <? 9223372036854775808) with true by lia. reflexivity. Qed.
Lemma color_found r g b y : 0 <= r <= 255 -> 0 <= g <= 255 -> 0 <= b <= 255 -> first_match rtf_color (rtf_header ++ [10] ++ table r g b ++ y) = Some (r, g, b).
Proof.
  intros R G Bb. set (x := dec r ++ B "\green" ++ dec g ++ B "\blue" ++ dec b ++ B ";" ++ (B "}" ++ [10] ++ y)).
  assert (Q : rtf_color (B "\colortbl ;\red" ++ x) = Some (r, g, b)).
  { unfold rtf_color. change (B "\colortbl ;\red" ++ x) with (B "\colortbl" ++ 32 :: B ";\red" ++ x). rewrite after_app. change (skipn (run re_space (32 :: B ";\red" ++ x)) (32 :: B ";\red" ++ x)) with (B ";\red" ++ x). rewrite after_app.
    unfold x. rewrite digits_dec by (reflexivity || lia). rewrite after_app. rewrite digits_dec by (reflexivity || lia). rewrite after_app. rewrite digits_dec by (reflexivity || lia). rewrite prefix_app. rewrite !scan_dec by lia. reflexivity. }
  replace (rtf_header ++ [10] ++ table r g b ++ y) with (rtf_header ++ [10; 123] ++ B "\colortbl ;\red" ++ x) by (unfold table, x; rewrite <- !app_assoc; reflexivity).
  change (first_match rtf_color (rtf_header ++ [10; 123] ++ B "\colortbl ;\red" ++ x)) with (first_match rtf_color (B "\colortbl ;\red" ++ x)).
  change (first_match rtf_color (B "\colortbl ;\red" ++ x)) with (match rtf_color (B "\colortbl ;\red" ++ x) with Some a => Some a | None => first_match rtf_color (B "colortbl ;\red" ++ x) end). rewrite Q. reflexivity.
Qed.
Lemma hex_up c : hex c -> 0 <= hexval c < 16 /\ hexdigit (hexval c) = up c.
Proof. unfold hex, hexval, hexdigit, up, is_digit. intros [H|[H|H]].
  - replace ((48 <=? c) && (c <=? 57)) with true by lia. replace (c - 48 <? 10) with true by lia. replace ((97 <=? c) && (c <=? 122)) with false by lia. lia.
  - replace ((48 <=? c) && (c <=? 57)) with false by lia. replace (c <=? 70) with true by lia. replace (c - 55 <? 10) with false by lia. replace ((97 <=? c) && (c <=? 122)) with false by lia. lia.
  - replace ((48 <=? c) && (c <=? 57)) with false by lia. replace (c <=? 70) with false by lia. replace (c - 87 <? 10) with false by lia. replace ((97 <=? c) && (c <=? 122)) with true by lia. lia.
Qed.
Lemma format_parse s : good_style s -> color s <> [] -> (let '(r, g, b) := parse_rgb (color s) in format_rgb r g b) = Some (map up (color s)).
Proof.
  intros [G|(a & b & c & d & e & f & G & F)] NE; [congruence|]. rewrite G. inversion_clear F as [|? ? Ha F1]. inversion_clear F1 as [|? ? Hb F2]. inversion_clear F2 as [|? ? Hc F3]. inversion_clear F3 as [|? ? Hd F4]. inversion_clear F4 as [|? ? He F5]. inversion_clear F5 as [|? ? Hf F6].
  apply hex_up in Ha as [Ra Ua]. apply hex_up in Hb as [Rb Ub]. apply hex_up in Hc as [Rc Uc]. apply hex_up in Hd as [Rd Ud]. apply hex_up in He as [Re Ue]. apply hex_up in Hf as [Rf Uf].
  unfold parse_rgb. cbn [tl fold_left map]. change (up 35) with 35. rewrite <- Ua, <- Ub, <- Uc, <- Ud, <- Ue, <- Uf.
  set (x1 := hexval a) in *. set (x2 := hexval b) in *. set (x3 := hexval c) in *. set (x4 := hexval d) in *. set (x5 := hexval e) in *. set (x6 := hexval f) in *. clearbody x1 x2 x3 x4 x5 x6. clear Ua Ub Uc Ud Ue Uf G NE.
  change 255 with (Z.ones 8). rewrite !Z.land_ones by lia. rewrite !Z.shiftr_div_pow2 by lia. change (2 ^ 8) with 256. change (2 ^ 16) with 65536.
  set (v := 16 * _ + x6). assert (V : v = ((((x1 * 16 + x2) * 16 + x3) * 16 + x4) * 16 + x5) * 16 + x6) by (unfold v; lia). clearbody v.
  assert (Q1 : (v / 65536) mod 256 = 16 * x1 + x2) by lia. assert (Q2 : (v / 256) mod 256 = 16 * x3 + x4) by lia. assert (Q3 : v mod 256 = 16 * x5 + x6) by lia. rewrite Q1, Q2, Q3.
  unfold format_rgb. match goal with |- (if ?b then _ else _) = _ => replace b with false by lia end. cbn [flat_map app].
  replace ((16 * x1 + x2) / 16) with x1 by lia. replace ((16 * x1 + x2) mod 16) with x2 by lia. replace ((16 * x3 + x4) / 16) with x3 by lia. replace ((16 * x3 + x4) mod 16) with x4 by lia. replace ((16 * x5 + x6) / 16) with x5 by lia. replace ((16 * x5 + x6) mod 16) with x6 by lia.
  reflexivity.
Qed.
(** Decoding the encoding of such a text gives the text and its style. *)
Lemma decode_safe t s : safe t -> good_style s -> exists r, encode_rtf t s = Some r /\ decode_rtf r = Some (t, upper s).
Proof.
  intros SF G. pose proof SF as (NE & F & W1 & W2). rewrite encode_shape by auto. rewrite escape_safe by auto. eexists. split; [reflexivity|].
  assert (N92 : ~ In 92 t) by (apply safe_no; [auto|cbn; tauto]).
  assert (TS : prefix (B "{\rtf") (trim_space (enc_of t s t)) = true).
  { assert (SH : exists y, enc_of t s t = (123 :: B "\rtf" ++ y) ++ [125]).
    { unfold enc_of. destruct (parse_rgb (color s)) as [[r g] b]. set (cc := match color s with [] => false | _ => true end). exists (B "1\ansi\deff0" ++ [10] ++ (if cc then table r g b else []) ++ pre (bold s) (italic s) (underline s) cc ++ t ++ post (bold s) (italic s) (underline s) cc ++ [10]).
      set (u := if cc then table r g b else []). set (v := pre _ _ _ _). set (w := post _ _ _ _). clearbody u v w. cbn [app]. rewrite <- ?app_assoc. cbn [app]. rewrite <- ?app_assoc. cbn [app]. rewrite <- ?app_assoc. reflexivity. }
    destruct SH as (y & ->). rewrite trim_space_id; [reflexivity|discriminate|cbn [app hd]; lia|rewrite last_last; lia|cbn [app hd]; unfold ws; lia|rewrite last_last; unfold ws; lia]. }
  unfold decode_rtf. destruct (enc_of t s t) as [|h0 x0] eqn:EE; [unfold enc_of in EE; destruct (parse_rgb (color s)) as [[r g] b]; discriminate|]. rewrite <- EE in *. clear h0 x0 EE. rewrite TS.
  change (B "\b ") with (92 :: B "b "). change (B "\i ") with (92 :: B "i "). change (B "\ul ") with (92 :: B "ul ").
  rewrite (detect t s (B "b ") (bold s)) by auto. rewrite (detect t s (B "i ") (italic s)) by auto. rewrite (detect t s (B "ul ") (underline s)) by auto 6. rewrite strip_safe by auto.
  destruct (color s) as [|h c] eqn:EC.
  - rewrite color_none; [unfold upper; rewrite EC; reflexivity|]. apply (detect t s (B "colortbl")); [auto|]. rewrite EC. auto 6.
  - pose proof (format_parse s G ltac:(rewrite EC; discriminate)) as FP. pose proof (parse_range (color s)) as PR. unfold enc_of. rewrite EC in *. destruct (parse_rgb (h :: c)) as [[r g] b]. rewrite color_found by lia. rewrite FP. unfold upper. rewrite EC. reflexivity.
Qed.


(* ---------- which texts do not survive ---------- *)
Lemma rtf_rune_range r c : In c (rtf_rune r) -> c < 128 /\ c <> 13.
Proof.
  unfold rtf_rune. destruct (r =? 92); [intros I; cbv in I; intuition lia|]. destruct (r =? 123); [intros I; cbv in I; intuition lia|]. destruct (r =? 125); [intros I; cbv in I; intuition lia|].
  destruct (r =? 10); [intros I; cbv in I; intuition lia|]. destruct (r =? 13) eqn:E; [intros []|]. destruct (127 <? r) eqn:E2.
  - rewrite !in_app_iff. intros [I|[I|I]]; [cbv in I; intuition lia| |cbv in I; intuition lia]. pose proof (dec_digits r ltac:(lia)) as F. rewrite Forall_forall in F. specialize (F c I). unfold is_digit in F. lia.
  - intros [<-|[]]. lia.
Qed.
Lemma strip_incl s : incl (strip_rtf s) s.
Proof.
  intros c I. unfold strip_rtf in I. apply trim_space_incl in I. repeat apply cut_incl in I.
  assert (TP : forall p x, In c (trim_prefix p x) -> In c x) by (intros p x J; unfold trim_prefix in J; destruct (prefix p x); [rewrite <- (firstn_skipn (length p) x); apply in_or_app; auto|auto]).
  apply TP, TP, cut_incl in I. exact I.
Qed.
(** Whatever is decoded, no brace is left. *)
Lemma strip_no_brace s c : In c [123; 125] -> ~ In c (strip_rtf s).
Proof.
  intros C I. unfold strip_rtf in I. apply trim_space_incl in I. change (B "{") with [123] in I. change (B "}") with [125] in I. rewrite !cut_lit1 in I. apply filter_In in I as [I N1]. apply filter_In in I as [_ N2]. cbn in C. lia.
Qed.
Lemma enc_of_chars t s e c : good_style s -> In c (enc_of t s e) -> (c < 128 /\ c <> 13) \/ In c e.
Proof.
  intros G. unfold enc_of. pose proof (parse_range (color s)) as PR. destruct (parse_rgb (color s)) as [[r g] b]. set (cc := match color s with [] => false | _ => true end).
  assert (DG : forall n, 0 <= n -> In c (dec n) -> c < 128 /\ c <> 13) by (intros n N I; pose proof (dec_digits n N) as F; rewrite Forall_forall in F; specialize (F c I); unfold is_digit in F; lia).
  assert (K : forall x, forallb (fun c => (c <? 128) && negb (c =? 13)) x = true -> In c x -> c < 128 /\ c <> 13) by (intros x F I; rewrite forallb_forall in F; specialize (F c I); lia).
  rewrite !in_app_iff. intros [I|[I|[I|[I|[I|[I|I]]]]]]; [left; revert I; apply K; reflexivity|left; revert I; apply K; reflexivity| |left; revert I; apply K; destruct (bold s), (italic s), (underline s), cc; reflexivity|right; exact I
    |left; revert I; apply K; destruct (bold s), (italic s), (underline s), cc; reflexivity|left; revert I; apply K; reflexivity].
  left. destruct cc; [|destruct I]. unfold table in I. rewrite !in_app_iff in I.
  destruct I as [I|[I|[I|[I|[I|[I|[I|I]]]]]]]; try (revert I; apply K; reflexivity); revert I; apply DG; lia.
Qed.

(** Every newline is the end of a "\line" control word. *)
Inductive lined : list Z -> Prop :=
| Lnil : lined []
| Lchar c s : c <> 10 -> lined s -> lined (c :: s)
| Lline s : lined s -> lined (B "\line" ++ 10 :: s).
(** An expression that cannot match "\line" and whose matches have no newline and one backslash. *)
Definition mild (m : list Z -> option nat) : Prop :=
  forall s, match m s with Some n => Forall (fun c => c <> 10 /\ c <> 92) (firstn (pred n) (tl s)) /\ prefix (B "\l") s = false | None => True end.
Lemma lined_cut m : mild m -> m [] = None -> (forall c r, c <> 92 -> m (c :: r) = None) -> forall s, lined s -> forall k, Forall (fun c => c <> 10 /\ c <> 92) (firstn k s) -> lined (cut m k s).
Proof.
  intros M M0 M1 s L. induction L as [|c s C L IH|s L IH]; intros k F.
  - constructor.
  - cbn [cut]. destruct k as [|k].
    + pose proof (M (c :: s)) as Q. destruct (m (c :: s)) as [n|]; [apply IH; cbn [tl] in Q; tauto|]. constructor; [exact C|]. apply IH. constructor.
    + cbn [firstn] in F. inversion_clear F. apply IH. auto.
  - destruct k as [|k]; [|exfalso; cbn [app firstn] in F; inversion_clear F; lia].
    assert (Q : cut m 0 (B "\line" ++ 10 :: s) = B "\line" ++ 10 :: cut m 0 s).
    { change (B "\line" ++ 10 :: s) with (92 :: ([108; 105; 110; 101; 10] ++ s)).
      change (cut m 0 (92 :: ([108; 105; 110; 101; 10] ++ s))) with (match m (92 :: ([108; 105; 110; 101; 10] ++ s)) with Some n => cut m (pred n) ([108; 105; 110; 101; 10] ++ s) | None => 92 :: cut m 0 ([108; 105; 110; 101; 10] ++ s) end).
      pose proof (M (92 :: [108; 105; 110; 101; 10] ++ s)) as Q. destruct (m (92 :: [108; 105; 110; 101; 10] ++ s)) as [n|]; [destruct Q as [_ Q]; discriminate|].
      rewrite cut_id; [reflexivity|auto|]. intros c r I. apply M1. cbn in I. intuition lia. }
    rewrite Q. apply Lline. apply IH. constructor.
Qed.
Lemma mild_lit p : Forall (fun c => c <> 10 /\ c <> 92) p -> hd 0 p <> 108 -> p <> [] -> mild (lit (92 :: p)).
Proof.
  intros F H NE s. unfold lit. destruct (prefix (92 :: p) s) eqn:E; [|exact I]. apply prefix_spec in E as (r & ->). cbn [length pred tl app]. rewrite firstn_len. split; [exact F|]. destruct p as [|a p]; [congruence|]. cbn [hd] in H. change (B "\l") with [92; 108]. cbn [app prefix]. destruct (108 =? a) eqn:A; [lia|reflexivity].
Qed.
Lemma mild_cf : mild cf.
Proof.
  intros s. unfold cf. change (B "\cf") with [92; 99; 102]. destruct (prefix [92; 99; 102] s) eqn:E; [|exact I]. apply prefix_spec in E as (r & ->). change (skipn 3 ([92; 99; 102] ++ r)) with r.
  destruct (run is_digit r) as [|k] eqn:R; [exact I|]. change (skipn (3 + S k) ([92; 99; 102] ++ r)) with (skipn (S k) r). destruct (prefix [32] (skipn (S k) r)) eqn:P; [|exact I]. split; [|reflexivity].
  change (tl ([92; 99; 102] ++ r)) with ([99; 102] ++ r). change (firstn (pred (4 + S k)) ([99; 102] ++ r)) with (99 :: 102 :: firstn (S (S k)) r). repeat (apply Forall_cons; [lia|]). rewrite <- (firstn_skipn (S k) r).
  apply prefix_spec in P as (q & P). rewrite P. assert (L : length (firstn (S k) r) = S k) by (rewrite firstn_length; pose proof (run_le is_digit r); lia).
  rewrite firstn_app, L. replace (S (S k) - S k)%nat with 1%nat by lia. apply Forall_app. split; [|repeat constructor; lia]. rewrite firstn_all2 by lia. rewrite <- R. clear. induction r as [|c r IH]; [constructor|]. cbn [run]. destruct (is_digit c) eqn:D; [|constructor]. cbn [firstn]. constructor; [unfold is_digit in D; lia|auto].
Qed.
Lemma lined_cutall s : lined s -> lined (cutall known s).
Proof.
  intros L. unfold cutall. assert (G : forall ms, incl ms known -> forall s, lined s -> lined (fold_left (fun s m => cut m 0 s) ms s)).
  { induction ms as [|m ms IH]; intros I x X; [exact X|]. cbn [fold_left]. apply IH; [intros y Y; apply I; right; auto|]. assert (J : In m known) by (apply I; left; auto). destruct (known_local m J) as (L1 & L2 & L3).
    apply lined_cut; auto; [|destruct (m []) as [n|] eqn:E; [apply L1 in E; cbn in E; lia|reflexivity]|constructor].
    cbn [known In] in J. repeat (destruct J as [<-|J]; [first [apply mild_cf|apply mild_lit; [repeat (apply Forall_cons; [lia|]); apply Forall_nil|discriminate|discriminate]]|]). destruct J. }
  apply G; [apply incl_refl|exact L].
Qed.
(** Removing all control words removes every newline but the last one. *)
Lemma run_forall p s : Forall (fun c => p c = true) (firstn (run p s) s).
Proof. induction s as [|c s IH]; [constructor|]. cbn [run]. destruct (p c) eqn:E; [|constructor]. cbn [firstn]. constructor; auto. Qed.
Lemma control_match c r n : control (c :: r) = Some n -> c = 92 /\ exists l, (1 <= l)%nat /\ (l < n)%nat /\ Forall (fun x => is_lower x = true) (firstn l r) /\ (l <= length r)%nat /\ Forall (fun x => x <> 92) (firstn (pred n) r).
Proof.
  intros H. assert (C : c = 92). { unfold control in H. destruct c as [|h|h]; try discriminate. repeat (destruct h as [h|h|]; try discriminate). reflexivity. }
  subst c. split; [reflexivity|]. change (control (92 :: r)) with (match run is_lower r with O => None | S _ as n => let m := run is_digit (skipn n r) in Some (1 + n + m + run re_space (skipn (n + m) r))%nat end) in H.
  pose proof (run_forall is_lower r) as F1. pose proof (run_le is_lower r) as LE. destruct (run is_lower r) as [|k]; [discriminate|]. cbv zeta in H. apply some_inj in H. subst n. exists (S k). split; [lia|]. split; [lia|]. split; [exact F1|]. split; [exact LE|].
  replace (pred (1 + S k + run is_digit (skipn (S k) r) + run re_space (skipn (S k + run is_digit (skipn (S k) r)) r))) with (S k + (run is_digit (skipn (S k) r) + run re_space (skipn (S k + run is_digit (skipn (S k) r)) r)))%nat by lia.
  assert (SPL : forall a b (x : list Z), firstn (a + b) x = firstn a x ++ firstn b (skipn a x)).
  { induction a as [|a IH]; intros b [|y x]; cbn [Nat.add firstn skipn app]; try reflexivity; [destruct b; reflexivity|]. f_equal. apply IH. }
  rewrite SPL. apply Forall_app. split; [eapply Forall_impl; [|exact F1]; cbv beta; intros x X; unfold is_lower in X; lia|].
  set (q := skipn (S k) r). assert (SK : skipn (S k + run is_digit q) r = skipn (run is_digit q) q).
  { unfold q. generalize (run is_digit (skipn (S k) r)). generalize (S k). clear. induction r as [|y r IH]; intros a b; [rewrite !skipn_nil; reflexivity|]. destruct a; [reflexivity|]. cbn [Nat.add skipn]. apply IH. }
  rewrite SK, SPL. apply Forall_app. split; [eapply Forall_impl; [|apply run_forall]|eapply Forall_impl; [|apply run_forall]]; cbv beta; intros x X; unfold is_digit, re_space in X; lia.
Qed.
(** Removing all control words removes every newline but the last one. *)
Lemma control_lined : forall s, lined s -> forall k, Forall (fun c => c <> 92) (firstn k s) ->
  exists g z, cut control k (s ++ [10; 125]) = g ++ z /\ ~ In 10 g /\ (z = [10; 125] \/ z = [125] \/ z = []).
Proof.
  intros s L. assert (PF : forall k (a b : list Z) Q, Forall Q (firstn k (a ++ b)) -> Forall Q (firstn k a)) by (intros k a b Q F; rewrite firstn_app in F; apply Forall_app in F; tauto).
  induction L as [|c s C L IH|s L IH]; intros k F.
  - exists [], (cut control k [10; 125]). split; [reflexivity|]. split; [tauto|]. destruct k as [|[|k]]; cbv; auto.
  - change ((c :: s) ++ [10; 125]) with (c :: s ++ [10; 125]). cbn [cut]. destruct k as [|k].
    + destruct (control (c :: s ++ [10; 125])) as [n|] eqn:E.
      * apply control_match in E as (_ & l & _ & _ & _ & _ & E). apply IH. eapply PF. exact E.
      * destruct (IH 0%nat ltac:(constructor)) as (g & z & Q & N & Z). exists (c :: g), z. rewrite Q. split; [reflexivity|]. split; [intros [H|H]; auto|exact Z].
    + cbn [firstn] in F. inversion_clear F. apply IH. auto.
  - destruct k as [|k]; [|exfalso; cbn [app firstn] in F; inversion_clear F; lia].
    change ((B "\line" ++ 10 :: s) ++ [10; 125]) with (92 :: [108; 105; 110; 101; 10] ++ s ++ [10; 125]). set (x := s ++ [10; 125]).
    change (cut control 0 (92 :: [108; 105; 110; 101; 10] ++ x)) with (cut control (length [108; 105; 110; 101; 10] + run re_space x) ([108; 105; 110; 101; 10] ++ x)). cbn [length Nat.add app cut]. apply IH. apply (PF _ s [10; 125]).
    eapply Forall_impl; [|apply run_forall]. cbv beta. intros a A. unfold re_space in A. lia.
Qed.
Lemma lined_escape t : Forall (fun c => 0 <= c < 128) t -> lined (rtf_escape t).
Proof.
  intros F. unfold rtf_escape. rewrite runes_ascii by auto. induction F as [|c t C F IH]; [constructor|]. cbn [flat_map]. unfold rtf_rune.
  destruct (c =? 92) eqn:E1; [do 2 (apply Lchar; [lia|]); exact IH|]. destruct (c =? 123) eqn:E2; [do 2 (apply Lchar; [lia|]); exact IH|]. destruct (c =? 125) eqn:E3; [do 2 (apply Lchar; [lia|]); exact IH|].
  destruct (c =? 10) eqn:E4; [change ((B "\line" ++ [10]) ++ flat_map rtf_rune t) with (B "\line" ++ 10 :: flat_map rtf_rune t); apply Lline; exact IH|]. destruct (c =? 13) eqn:E5; [exact IH|]. destruct (127 <? c) eqn:E6; [lia|]. apply Lchar; [lia|exact IH].
Qed.

(** Letters minus backslashes: removing control words does not increase it. *)
Fixpoint bal (s : list Z) : Z := match s with [] => 0 | c :: r => (if is_lower c then 1 else 0) - (if c =? 92 then 1 else 0) + bal r end.
Lemma bal_app a b : bal (a ++ b) = bal a + bal b.
Proof. induction a as [|c a IH]; cbn [app bal]; [lia|]. rewrite IH. lia. Qed.
Lemma bal_cut m : (forall s n, m s = Some n -> (1 <= n)%nat /\ 0 <= bal (firstn n s)) -> forall s k, bal (cut m k s) <= bal (skipn k s).
Proof.
  intros M. induction s as [|c s IH]; intros k; [rewrite skipn_nil; cbn; lia|]. cbn [cut]. destruct k as [|k]; [|cbn [skipn]; apply IH]. cbn [skipn].
  destruct (m (c :: s)) as [n|] eqn:E; [|cbn [bal]; pose proof (IH 0%nat) as Q; cbn [skipn] in Q; lia]. apply M in E as [E1 E2]. destruct n as [|n]; [lia|]. cbn [pred]. pose proof (IH n) as Q.
  rewrite <- (firstn_skipn (S n) (c :: s)), bal_app. cbn [skipn]. lia.
Qed.
Lemma bal_nonneg_no92 s : Forall (fun x => x <> 92) s -> 0 <= bal s.
Proof. intros F. induction F as [|c s C F IH]; cbn [bal]; [lia|]. replace (c =? 92) with false by lia. destruct (is_lower c); lia. Qed.
Lemma bal_known m : In m known -> forall s n, m s = Some n -> (1 <= n)%nat /\ 0 <= bal (firstn n s).
Proof.
  intros I s n H. split; [apply known_local in I as (L & _); apply L in H; lia|]. cbn [known In] in I.
  assert (LI : forall p, bal p = 0 -> m = lit p -> 0 <= bal (firstn n s)). { intros p P ->. unfold lit in H. destruct (prefix p s) eqn:E; [|discriminate]. apply some_inj in H. subst n. apply prefix_spec in E as (r & ->). rewrite firstn_len. lia. }
  assert (LI2 : forall p, 0 <= bal p -> m = lit p -> 0 <= bal (firstn n s)). { intros p P ->. unfold lit in H. destruct (prefix p s) eqn:E; [|discriminate]. apply some_inj in H. subst n. apply prefix_spec in E as (r & ->). rewrite firstn_len. lia. }
  repeat (destruct I as [I|I]; [first [eapply LI2; [|symmetry; exact I]; cbv; discriminate|subst m]|]); [|destruct I].
  pose proof (mild_cf s) as Q. rewrite H in Q. destruct Q as [Q _]. unfold cf in H. change (B "\cf") with [92; 99; 102] in H. destruct (prefix [92; 99; 102] s) eqn:E; [|discriminate]. apply prefix_spec in E as (r & ->).
  destruct (run is_digit (skipn 3 ([92; 99; 102] ++ r))) as [|k] eqn:R; [discriminate|]. destruct (prefix _ _); [|discriminate]. apply some_inj in H. subst n.
  change (firstn (4 + S k) ([92; 99; 102] ++ r)) with ([92; 99; 102] ++ firstn (S (S k)) r). change (firstn (pred (4 + S k)) (tl ([92; 99; 102] ++ r))) with ([99; 102] ++ firstn (S (S k)) r) in Q. apply Forall_app in Q as [_ Q]. rewrite bal_app.
  change (bal [92; 99; 102]) with 1. pose proof (bal_nonneg_no92 (firstn (S (S k)) r)) as Q2. assert (F : Forall (fun x => x <> 92) (firstn (S (S k)) r)) by (eapply Forall_impl; [|exact Q]; cbv beta; tauto). specialize (Q2 F). lia.
Qed.
Lemma bal_control s n : control s = Some n -> (1 <= n)%nat /\ 0 <= bal (firstn n s).
Proof.
  intros H. destruct s as [|c r]; [discriminate|]. destruct (control_match c r n H) as (-> & l & L1 & L2 & F & LE & F2). split; [lia|]. destruct n as [|n]; [lia|]. cbn [firstn bal pred] in *. change (is_lower 92) with false. change (92 =? 92) with true. cbn iota.
  assert (1 <= bal (firstn n r)); [|lia]. destruct r as [|d r]; [cbn in LE; lia|]. destruct n as [|n]; [lia|]. destruct l as [|l]; [lia|]. cbn [firstn] in *. inversion_clear F. inversion_clear F2. cbn [bal]. rewrite H0. replace (d =? 92) with false by lia. pose proof (bal_nonneg_no92 _ H3). lia.
Qed.
Lemma bal_filter c s : is_lower c = false -> c <> 92 -> bal (filter (fun x => negb (x =? c)) s) = bal s.
Proof. intros L N. induction s as [|d s IH]; [reflexivity|]. cbn [filter bal]. destruct (d =? c) eqn:E; cbn [negb bal]; [|lia]. assert (d = c) by lia. subst d. rewrite L. replace (c =? 92) with false by lia. lia. Qed.
Lemma bal_trim_le f : (forall s, bal (firstn (f s) s) = 0) -> forall s k, bal (trim f k s) = bal (skipn k s).
Proof.
  intros F. induction s as [|c s IH]; intros k; [rewrite skipn_nil; reflexivity|]. cbn [trim]. destruct k as [|k]; [|cbn [skipn]; apply IH]. cbn [skipn]. pose proof (F (c :: s)) as Q. destruct (f (c :: s)) as [|k]; [reflexivity|].
  rewrite IH. rewrite <- (firstn_skipn (S k) (c :: s)), bal_app, Q. reflexivity.
Qed.
Lemma bal_rev s : bal (rev s) = bal s.
Proof. induction s as [|c s IH]; [reflexivity|]. cbn [rev]. rewrite bal_app, IH. cbn [bal]. lia. Qed.
Lemma bal_space_at s : bal (firstn (space_at s) s) = 0.
Proof.
  unfold space_at. destruct s as [|a r]; [reflexivity|]. destruct (((9 <=? a) && (a <=? 13)) || (a =? 32)) eqn:E1.
  - cbn [firstn bal]. unfold is_lower. replace ((97 <=? a) && (a <=? 122)) with false by lia. replace (a =? 92) with false by lia. reflexivity.
  - destruct r as [|b r2]; [reflexivity|]. destruct ((a =? 194) && ((b =? 133) || (b =? 160))) eqn:E2.
    + cbn [firstn bal]. unfold is_lower. replace ((97 <=? a) && (a <=? 122)) with false by lia. replace (a =? 92) with false by lia. replace ((97 <=? b) && (b <=? 122)) with false by lia. replace (b =? 92) with false by lia. reflexivity.
    + destruct r2 as [|c r3]; [reflexivity|]. match goal with |- bal (firstn (if ?x then _ else _) _) = _ => destruct x eqn:E3 end; [|reflexivity].
      cbn [firstn bal]. unfold is_lower. replace ((97 <=? a) && (a <=? 122)) with false by lia. replace (a =? 92) with false by lia. replace ((97 <=? b) && (b <=? 122)) with false by lia. replace (b =? 92) with false by lia. replace ((97 <=? c) && (c <=? 122)) with false by lia. replace (c =? 92) with false by lia. reflexivity.
Qed.
Lemma bal_space_end s : bal (firstn (space_end s) s) = 0.
Proof.
  unfold space_end. destruct s as [|a r]; [reflexivity|]. destruct (((9 <=? a) && (a <=? 13)) || (a =? 32)) eqn:E1.
  - cbn [firstn bal]. unfold is_lower. replace ((97 <=? a) && (a <=? 122)) with false by lia. replace (a =? 92) with false by lia. reflexivity.
  - destruct r as [|b r2]; [reflexivity|]. destruct (space_at [b; a] =? 2)%nat eqn:E2.
    + apply Nat.eqb_eq in E2. pose proof (bal_space_at [b; a]) as Q. rewrite E2 in Q. cbn [firstn bal] in *. lia.
    + destruct r2 as [|c r3]; [reflexivity|]. destruct (space_at [c; b; a] =? 3)%nat eqn:E3; [|reflexivity]. apply Nat.eqb_eq in E3. pose proof (bal_space_at [c; b; a]) as Q. rewrite E3 in Q. cbn [firstn bal] in *. lia.
Qed.
Lemma bal_trim_space s : bal (trim_space s) = bal s.
Proof. unfold trim_space. rewrite bal_rev, (bal_trim_le _ bal_space_end). cbn [skipn]. rewrite bal_rev, (bal_trim_le _ bal_space_at). reflexivity. Qed.
Lemma bal_cutall s : bal (cutall known s) <= bal s.
Proof.
  unfold cutall. assert (G : forall ms, incl ms known -> forall s, bal (fold_left (fun s m => cut m 0 s) ms s) <= bal s).
  { induction ms as [|m ms IH]; intros I x; [cbn; lia|]. cbn [fold_left]. etransitivity; [apply IH; intros y Y; apply I; right; auto|]. apply (bal_cut m (bal_known m (I m (or_introl eq_refl))) x 0%nat). }
  apply G, incl_refl.
Qed.
Lemma bal_strip t s e : ~ In 123 e -> bal (strip_rtf (enc_of t s e)) <= bal e.
Proof.
  intros N. rewrite strip_shape by auto. rewrite bal_trim_space. change (B "{") with [123]. change (B "}") with [125]. rewrite !cut_lit1, !bal_filter by (reflexivity || lia).
  etransitivity; [apply (bal_cut control bal_control _ 0%nat)|]. cbn [skipn]. rewrite !bal_app. pose proof (bal_cutall e). assert (Q : bal (match color s with [] => [] | _ => [10] end) = 0) by (destruct (color s); reflexivity). rewrite Q. change (bal [10; 125]) with 0. lia.
Qed.

Lemma trim_done f : forall s k, trim f k s = [] \/ f (trim f k s) = 0%nat.
Proof.
  induction s as [|c s IH]; intros k; [left; reflexivity|]. cbn [trim]. destruct k as [|k]; [|apply IH]. destruct (f (c :: s)) as [|k] eqn:E; [right; exact E|apply IH].
Qed.
Lemma trim_space_ends y : trim_space y <> [] -> ~ ws (hd 0 (trim_space y)) /\ ~ ws (last (trim_space y) 0).
Proof.
  unfold trim_space. set (u := trim space_at 0 y). intros NE.
  assert (W : forall c r, ws c -> space_at (c :: r) = 1%nat /\ space_end (c :: r) = 1%nat) by (unfold ws; intros c r C; unfold space_at, space_end; replace (((9 <=? c) && (c <=? 13)) || (c =? 32)) with true by lia; auto).
  destruct (trim_done space_end (rev u) 0) as [D|D]; [rewrite D in NE; cbn in NE; congruence|].
  assert (U : space_at u = 0%nat). { destruct (trim_done space_at y 0) as [Q|Q]; fold u in Q; [|exact Q]. rewrite Q. reflexivity. }
  destruct (trim_suffix space_end (rev u) 0) as (j & TS). split.
  - assert (P : rev (trim space_end 0 (rev u)) ++ rev (firstn j (rev u)) = u) by (rewrite TS, <- rev_app_distr, firstn_skipn; apply rev_involutive).
    destruct (rev (trim space_end 0 (rev u))) as [|c v]; [congruence|]. cbn [hd]. rewrite <- P in U. cbn [app] in U. intros C. destruct (W c (v ++ rev (firstn j (rev u))) C) as [Q _]. congruence.
  - rewrite <- (rev_last _ 0), rev_involutive. destruct (trim space_end 0 (rev u)) as [|c v]; [cbn in NE; congruence|]. cbn [hd]. intros C. destruct (W c v C) as [_ Q]. congruence.
Qed.

(* ---------- C56 ---------- *)
(** Exactly the safe texts survive, with any style, and their style survives with them. *)
Theorem C56_exactly : forall t s, t <> [] -> Forall (fun c => 0 <= c <= 255) t -> good_style s ->
  (safe t <-> exists r s', encode_rtf t s = Some r /\ decode_rtf r = Some (t, s')).
Proof.
  intros t s NE BY G. split; [intros S; destruct (decode_safe t s S G) as (r & E & D); eauto|].
  intros (r & s' & E & D). rewrite encode_shape in E by auto. apply some_inj in E. subst r. set (x := rtf_escape t) in *.
  assert (O : strip_rtf (enc_of t s x) = t).
  { unfold decode_rtf in D. destruct (enc_of t s x) as [|h y] eqn:EE; [congruence|]. rewrite <- EE in *. destruct (prefix _ _); [|discriminate]. destruct (first_match rtf_color _) as [[[r g] b]|]; [destruct (format_rgb r g b); [|discriminate]|]; congruence. }
  assert (AS : forall c, In c t -> c < 128 /\ c <> 13).
  { intros c I. rewrite <- O in I. apply strip_incl in I. apply enc_of_chars in I as [I|I]; auto. unfold x, rtf_escape in I. apply in_flat_map in I as (r & _ & I). eapply rtf_rune_range; exact I. }
  assert (NB : forall c, In c t -> c <> 123 /\ c <> 125) by (intros c I; rewrite <- O in I; split; intros ->; revert I; apply strip_no_brace; cbn; tauto).
  assert (A1 : Forall (fun c => 0 <= c < 128) t) by (apply Forall_forall; intros c I; rewrite Forall_forall in BY; specialize (BY c I); specialize (AS c I); lia).
  assert (X : x = flat_map rtf_rune t) by (unfold x, rtf_escape; rewrite runes_ascii by auto; reflexivity).
  assert (N123 : ~ In 123 x). { rewrite X. intros I. apply in_flat_map in I as (c & C & I). specialize (NB c C). specialize (AS c C). unfold rtf_rune in I. destruct (c =? 92); [cbv in I; intuition lia|]. destruct (c =? 123) eqn:?; [lia|]. destruct (c =? 125) eqn:?; [lia|]. destruct (c =? 10); [cbv in I; intuition lia|]. destruct (c =? 13) eqn:?; [lia|]. destruct (127 <? c) eqn:?; [lia|]. destruct I as [I|[]]. lia. }
  assert (NL : ~ In 10 t).
  { intros I. rewrite <- O in I. rewrite (strip_shape t s x N123) in I. pose proof (lined_cutall x (lined_escape t A1)) as L. destruct (control_lined _ L 0%nat ltac:(constructor)) as (g & z & Q & N10 & Z).
    assert (Q2 : cut control 0 ((match color s with [] => [] | _ => [10] end) ++ cutall known x ++ [10; 125]) = (match color s with [] => [] | _ => [10] end) ++ g ++ z) by (destruct (color s); cbn [app]; [exact Q|rewrite <- Q; reflexivity]). rewrite Q2 in I.
    change (B "{") with [123] in I. change (B "}") with [125] in I. rewrite !cut_lit1, !filter_app in I. set (g' := filter (fun x => negb (x =? 125)) (filter (fun x => negb (x =? 123)) g)) in *.
    assert (G' : ~ In 10 g') by (unfold g'; intros J; apply filter_In in J as [J _]; apply filter_In in J as [J _]; auto).
    assert (I2 : In 10 (trim_space (g' ++ filter (fun x => negb (x =? 125)) (filter (fun x => negb (x =? 123)) z)))) by (destruct (color s); exact I).
    destruct Z as [ -> |[ -> | -> ]]; cbn [filter negb Z.eqb Pos.eqb app] in I2; [apply trim_space_nl_back in I2; auto| |]; rewrite app_nil_r in I2; apply trim_space_incl in I2; auto. }
  assert (BS : ~ In 92 t).
  { pose proof (bal_strip t s x N123) as BB. rewrite O, X in BB. intros I. assert (W : bal (flat_map rtf_rune t) < bal t); [|lia]. revert I. clear - NB AS NL. 
    assert (W : bal (flat_map rtf_rune t) <= bal t /\ (In 92 t -> bal (flat_map rtf_rune t) < bal t)); [|tauto].
    induction t as [|c t IH]; [split; [cbn; lia|intros []]|]. destruct IH as [IH1 IH2]; [intros; apply AS; right; auto|intros; apply NB; right; auto|intros J; apply NL; right; auto|].
    pose proof (NB c (or_introl eq_refl)) as C1. pose proof (AS c (or_introl eq_refl)) as C2. assert (C3 : c <> 10) by (intros ->; apply NL; left; auto).
    assert (Q : bal (rtf_rune c) = bal [c] - (if c =? 92 then 1 else 0)).
    { unfold rtf_rune. destruct (c =? 92) eqn:E; [assert (c = 92) by lia; subst c; reflexivity|]. destruct (c =? 123) eqn:?; [lia|]. destruct (c =? 125) eqn:?; [lia|]. destruct (c =? 10) eqn:?; [lia|]. destruct (c =? 13) eqn:?; [lia|]. destruct (127 <? c) eqn:?; [lia|]. lia. }
    cbn [flat_map]. rewrite bal_app, Q. change (bal (c :: t)) with (bal ([c] ++ t)). rewrite bal_app. split; [destruct (c =? 92); lia|]. intros [-> |J]; [change (92 =? 92) with true; cbn iota; lia|specialize (IH2 J); destruct (c =? 92); lia]. }
  split; [exact NE|]. split; [|split].
  - apply Forall_forall. intros c I. rewrite Forall_forall in A1. split; [auto|]. specialize (AS c I). specialize (NB c I). intros J. cbn in J. intuition congruence.
  - rewrite <- O. unfold strip_rtf. apply trim_space_ends. intros Q. apply NE. rewrite <- O. exact Q.
  - rewrite <- O. unfold strip_rtf. apply trim_space_ends. intros Q. apply NE. rewrite <- O. exact Q.
Qed.
Theorem C56_style : forall t s, safe t -> good_style s -> exists r, encode_rtf t s = Some r /\ decode_rtf r = Some (t, upper s).
Proof. exact decode_safe. Qed.
Example C56_met : let s := St true false true [35; 97; 66; 48; 49; 50; 51] in safe (B "a, (b) c") /\ good_style s /\
  match encode_rtf (B "a, (b) c") s with Some r => decode_rtf r = Some (B "a, (b) c", St true false true (B "#AB0123")) | None => False end.
Proof.
  cbv zeta. split; [|split; [right; do 6 eexists; split; [reflexivity|]; repeat (apply Forall_cons; [unfold hex; lia|]); apply Forall_nil|reflexivity]].
  split; [discriminate|]. split; [|split; unfold ws; cbn; lia]. repeat (apply Forall_cons; [split; [lia|cbn; lia]|]). apply Forall_nil.
Qed.

(* ---------- C127 ---------- *)
(** Not every text survives: accents, backslashes, line breaks and indentation are lost, and a text can turn into a style. *)
Theorem C127_accents_refuted : exists t, t = [99; 195; 169] /\ match encode_rtf t plain with Some r => exists t', decode_rtf r = Some (t', plain) /\ t' = B "c?" | None => False end.
Proof. exists [99; 195; 169]. split; [reflexivity|]. eexists. split; reflexivity. Qed.
Theorem C127_path_refuted : exists t, t = B "C:\b x" /\ match encode_rtf t plain with Some r => decode_rtf r = Some (B "C:", St true false false []) | None => False end.
Proof. exists (B "C:\b x"). split; reflexivity. Qed.
Theorem C127_lines_refuted : exists t, t = [97; 10; 98] /\ match encode_rtf t plain with Some r => decode_rtf r = Some ([97; 98], plain) | None => False end.
Proof. exists [97; 10; 98]. split; reflexivity. Qed.
(** What every decoded text is like: no brace is left in it and it neither starts nor ends with white space. *)
Theorem C296_every_rtf_text : forall r, ~ In 123 (strip_rtf r) /\ ~ In 125 (strip_rtf r) /\ incl (strip_rtf r) r /\ (strip_rtf r <> [] -> ~ ws (hd 0 (strip_rtf r)) /\ ~ ws (last (strip_rtf r) 0)).
Proof. intros r. split; [apply strip_no_brace; cbn; tauto|]. split; [apply strip_no_brace; cbn; tauto|]. split; [apply strip_incl|]. apply trim_space_ends. Qed.

(* ---------- C124 ---------- *)
Lemma upper_good s : good_style s -> good_style (upper s).
Proof.
  intros [G|(a & b & c & d & e & f & G & F)]; [left; unfold upper; cbn [color]; rewrite G; reflexivity|right]. exists (up a), (up b), (up c), (up d), (up e), (up f). unfold upper. cbn [color]. rewrite G. split; [reflexivity|].
  assert (U : forall x, hex x -> hex (up x)) by (intros x X; unfold hex, up in *; destruct ((97 <=? x) && (x <=? 122)) eqn:E; lia).
  change [up a; up b; up c; up d; up e; up f] with (map up [a; b; c; d; e; f]). apply Forall_forall. intros x I. apply in_map_iff in I as (y & <- & I). rewrite Forall_forall in F. auto.
Qed.
(** Converting the HTML of a styled text to RTF and back: for safe texts the HTML of the same text and style. *)
Theorem C124_convert : forall others t s, safe t -> good_style s ->
  exists r, html_to_rtf others (encode_html t s) = Some r /\ rtf_to_html r = Some (encode_html t (upper s)) /\ decode_rtf r = Some (t, upper s) /\ decode_html others (encode_html t (upper s)) = (t, upper s).
Proof.
  intros others t s S G. pose proof S as (NE & _). destruct (decode_safe t s S G) as (r & E & D). exists r.
  assert (H : encode_html t s <> []). { intros Q. pose proof (C55_html others t s NE G) as R. rewrite Q in R. cbn in R. congruence. }
  split; [|split; [|split; [exact D|apply C55_html; [exact NE|apply upper_good; exact G]]]].
  - unfold html_to_rtf. destruct (encode_html t s) as [|h x] eqn:Q; [congruence|]. rewrite <- Q, C55_html by auto. exact E.
  - unfold rtf_to_html. destruct r as [|h x]; [cbn in D; congruence|]. rewrite D. reflexivity.
Qed.
(** An HTML document with only tags converts to nothing. *)
Theorem C124_empty : forall others d, Forall ok_piece d -> flat_map text_of d = [] -> html_to_rtf others (flat_map show d) = Some [].
Proof.
  intros others d F N. unfold html_to_rtf. destruct (flat_map show d) as [|h x] eqn:Q; [reflexivity|]. rewrite <- Q. pose proof (C125_plain_text others d F) as P. rewrite N in P. unfold decode_html. destruct (flat_map show d) eqn:Q2; [congruence|]. rewrite <- Q2 in *. rewrite P. reflexivity.
Qed.
Example C124_met : html_to_rtf (fun _ => []) (encode_html (B "x<y") (St true false false [])) = Some (rtf_header ++ [10] ++ B "\b x<y\b0 " ++ [10] ++ B "}").
Proof. reflexivity. Qed.

Print Assumptions C56_exactly. Print Assumptions C56_style. Print Assumptions C127_accents_refuted. Print Assumptions C127_path_refuted.
Print Assumptions C127_lines_refuted. Print Assumptions C296_every_rtf_text. Print Assumptions C124_convert. Print Assumptions C124_empty.
