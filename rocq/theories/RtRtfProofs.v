(** Lemmas for RtRtfProps: what decoding does to an encoded text. *)
From Verif Require Import RtModel RtProofs RtHtmlProps.
Local Open Scope list_scope.
Local Open Scope Z_scope.

(* ---------- cutting piecewise ---------- *)
(** An expression whose matches start with a backslash and end before the next backslash or newline. *)
Definition local (m : list Z -> option nat) : Prop :=
  (forall s n, m s = Some n -> (1 <= n <= length s)%nat) /\ (forall s d y, s <> [] -> d = 92 \/ d = 10 -> m (s ++ d :: y) = m s) /\ (forall c r, c <> 92 -> m (c :: r) = None).
Lemma cut_split m d y : local m -> d = 92 \/ d = 10 -> forall x k, (k <= length x)%nat -> cut m k (x ++ d :: y) = cut m k x ++ cut m 0 (d :: y).
Proof.
  intros (L1 & L2 & _) D. induction x as [|c x IH]; intros k K.
  - cbn in K. replace k with 0%nat by lia. reflexivity.
  - cbn [length] in K. cbn [app]. destruct k as [|k].
    + change (cut m 0 (c :: x ++ d :: y)) with (match m (c :: x ++ d :: y) with Some n => cut m (pred n) (x ++ d :: y) | None => c :: cut m 0 (x ++ d :: y) end).
      change (cut m 0 (c :: x)) with (match m (c :: x) with Some n => cut m (pred n) x | None => c :: cut m 0 x end).
      change (c :: x ++ d :: y) with ((c :: x) ++ d :: y). rewrite L2 by (auto; discriminate). destruct (m (c :: x)) as [n|] eqn:M.
      * apply L1 in M. cbn [length] in M. apply IH. lia.
      * rewrite IH by lia. reflexivity.
    + change (cut m (S k) (c :: x ++ d :: y)) with (cut m k (x ++ d :: y)). change (cut m (S k) (c :: x)) with (cut m k x). apply IH. lia.
Qed.
Lemma prefix_len p : forall s, prefix p s = true -> (length p <= length s)%nat.
Proof. intros s P. apply prefix_spec in P as (r & ->). rewrite app_length. lia. Qed.
Lemma prefix_end p d y : ~ In d p -> forall s, prefix p (s ++ d :: y) = prefix p s.
Proof.
  induction p as [|a p IH]; intros N s; [destruct s; reflexivity|]. destruct s as [|b s]; cbn [app prefix].
  - destruct (a =? d) eqn:E; [|reflexivity]. exfalso. apply N. left. lia.
  - f_equal. apply IH. intros I; apply N; right; auto.
Qed.
Lemma run_end p d y : p d = false -> forall s, run p (s ++ d :: y) = run p s.
Proof. intros N. induction s as [|b s IH]; cbn [app run]; [rewrite N; reflexivity|]. rewrite IH. reflexivity. Qed.
Lemma skipn_app_le {A} (s y : list A) n : (n <= length s)%nat -> skipn n (s ++ y) = skipn n s ++ y.
Proof. intros L. rewrite skipn_app. replace (n - length s)%nat with 0%nat by lia. reflexivity. Qed.
Lemma run_le p s : (run p s <= length s)%nat.
Proof. induction s as [|c s IH]; cbn [run length]; [lia|]. destruct (p c); lia. Qed.
Lemma local_lit p : ~ In 92 p -> ~ In 10 p -> local (lit (92 :: p)).
Proof.
  intros N1 N2. unfold lit. split; [|split].
  - intros s n H. destruct (prefix (92 :: p) s) eqn:E; [|discriminate]. apply some_inj in H. subst n. split; [cbn; lia|apply prefix_len; exact E].
  - intros s d y NE D. destruct s as [|b s]; [congruence|]. cbn [app prefix]. rewrite prefix_end; [reflexivity|]. destruct D; subst; auto.
  - intros c r N. cbn [prefix]. destruct (92 =? c) eqn:E; [lia|reflexivity].
Qed.
Lemma local_cf : local cf.
Proof.
  unfold cf. change (B "\cf") with [92; 99; 102]. split; [|split].
  - intros s n H. destruct (prefix [92; 99; 102] s) eqn:E; [|discriminate]. apply prefix_spec in E as (r & ->). change (skipn 3 ([92; 99; 102] ++ r)) with r in H.
    destruct (run is_digit r) as [|k] eqn:R; [discriminate|]. change (skipn (3 + S k) ([92; 99; 102] ++ r)) with (skipn (S k) r) in H. destruct (prefix [32] (skipn (S k) r)) eqn:P; [|discriminate]. apply some_inj in H. subst n.
    apply prefix_len in P. rewrite skipn_length in P. cbn [length] in P. rewrite app_length. cbn [length]. lia.
  - intros s d y NE D. destruct s as [|b s]; [congruence|]. change (prefix [92; 99; 102] ((b :: s) ++ d :: y)) with ((92 =? b) && prefix [99; 102] (s ++ d :: y)). change (prefix [92; 99; 102] (b :: s)) with ((92 =? b) && prefix [99; 102] s). cbn [app]. rewrite (prefix_end [99; 102]) by (destruct D; subst; intros I; cbn in I; intuition congruence).
    destruct ((92 =? b) && prefix [99; 102] s) eqn:E; [|reflexivity]. apply andb_prop in E as [_ E]. apply prefix_spec in E as (r & ->).
    change (skipn 3 (b :: ([99; 102] ++ r) ++ d :: y)) with (r ++ d :: y). change (skipn 3 (b :: [99; 102] ++ r)) with r. rewrite run_end by (destruct D; subst; reflexivity).
    pose proof (run_le is_digit r) as L. destruct (run is_digit r) as [|k] eqn:R; [reflexivity|].
    change (skipn (3 + S k) (b :: ([99; 102] ++ r) ++ d :: y)) with (skipn (S k) (r ++ d :: y)). change (skipn (3 + S k) (b :: [99; 102] ++ r)) with (skipn (S k) r). rewrite skipn_app_le by lia.
    rewrite prefix_end by (destruct D; subst; intros I; cbn in I; intuition congruence). reflexivity.
  - intros c r N. cbn [prefix]. destruct (92 =? c) eqn:E; [lia|reflexivity].
Qed.

(** The seven removals of known control words, :251-257. *)
Definition known : list (list Z -> option nat) := [lit (B "\b "); lit (B "\b0 "); lit (B "\i "); lit (B "\i0 "); lit (B "\ul "); lit (B "\ul0 "); cf].
Definition cutall (ms : list (list Z -> option nat)) (s : list Z) : list Z := fold_left (fun s m => cut m 0 s) ms s.
Lemma known_local m : In m known -> local m.
Proof. intros I. cbn [known In] in I. repeat (destruct I as [<-|I]; [first [apply local_cf|apply local_lit; intros J; cbv in J; intuition congruence]|]). destruct I. Qed.
Definition pre (b i u c : bool) : list Z := (if b then B "\b " else []) ++ (if i then B "\i " else []) ++ (if u then B "\ul " else []) ++ (if c then B "\cf1 " else []).
Definition post (b i u c : bool) : list Z := (if b then B "\b0 " else []) ++ (if i then B "\i0 " else []) ++ (if u then B "\ul0 " else []) ++ (if c then B "\cf0 " else []).
Lemma cutall_body b i u c e : cutall known (pre b i u c ++ e ++ post b i u c ++ [10; 125]) = cutall known e ++ [10; 125].
Proof.
  unfold cutall, known. cbn [fold_left].
  assert (L : forall m, In m known -> forall d y x, d = 92 \/ d = 10 -> cut m 0 (x ++ d :: y) = cut m 0 x ++ cut m 0 (d :: y)) by (intros m I d y x D; apply cut_split; [apply known_local; auto|auto|lia]).
  assert (K : forall m, In m known -> forall x p q d y, d = 92 \/ d = 10 -> (forall z, cut m 0 (p ++ z) = q ++ cut m 0 z) -> cut m 0 (p ++ x ++ d :: y) = q ++ cut m 0 x ++ cut m 0 (d :: y)) by (intros m I x p q d y D Q; rewrite Q; f_equal; apply L; auto).
  set (m1 := lit (B "\b ")). set (m2 := lit (B "\b0 ")). set (m3 := lit (B "\i ")). set (m4 := lit (B "\i0 ")). set (m5 := lit (B "\ul ")). set (m6 := lit (B "\ul0 ")).
  assert (P1 : In m1 known) by (cbn; tauto). assert (P2 : In m2 known) by (cbn; tauto). assert (P3 : In m3 known) by (cbn; tauto). assert (P4 : In m4 known) by (cbn; tauto).
  assert (P5 : In m5 known) by (cbn; tauto). assert (P6 : In m6 known) by (cbn; tauto). assert (P7 : In cf known) by (cbn; tauto).
  assert (S : forall m y1 y2 p q x, In m known -> (forall z, cut m 0 (p ++ z) = q ++ cut m 0 z) -> (match y1 with d :: _ => d = 92 \/ d = 10 | [] => False end) -> cut m 0 y1 = y2 -> cut m 0 (p ++ x ++ y1) = q ++ cut m 0 x ++ y2).
  { intros m y1 y2 p q x I Q D Y. destruct y1 as [|d y1]; [destruct D|]. rewrite (K m I x p q d y1 D Q), Y. reflexivity. }
  rewrite (S m1 _ (post b i u c ++ [10; 125]) _ (pre false i u c) e P1); [| |destruct b, i, u, c; cbv; auto|destruct b, i, u, c; reflexivity]. 2:{ destruct b, i, u, c; intros z; reflexivity. }
  rewrite (S m2 _ (post false i u c ++ [10; 125]) _ (pre false i u c) _ P2); [| |destruct b, i, u, c; cbv; auto|destruct b, i, u, c; reflexivity]. 2:{ destruct i, u, c; intros z; reflexivity. }
  rewrite (S m3 _ (post false i u c ++ [10; 125]) _ (pre false false u c) _ P3); [| |destruct i, u, c; cbv; auto|destruct i, u, c; reflexivity]. 2:{ destruct i, u, c; intros z; reflexivity. }
  rewrite (S m4 _ (post false false u c ++ [10; 125]) _ (pre false false u c) _ P4); [| |destruct i, u, c; cbv; auto|destruct i, u, c; reflexivity]. 2:{ destruct u, c; intros z; reflexivity. }
  rewrite (S m5 _ (post false false u c ++ [10; 125]) _ (pre false false false c) _ P5); [| |destruct u, c; cbv; auto|destruct u, c; reflexivity]. 2:{ destruct u, c; intros z; reflexivity. }
  rewrite (S m6 _ (post false false false c ++ [10; 125]) _ (pre false false false c) _ P6); [| |destruct u, c; cbv; auto|destruct u, c; reflexivity]. 2:{ destruct c; intros z; reflexivity. }
  rewrite (S cf _ [10; 125] _ [] _ P7); [| |destruct c; cbv; auto|destruct c; reflexivity]. 2:{ destruct c; intros z; reflexivity. }
  reflexivity.
Qed.
Lemma cutall_nl s : cutall known (10 :: s) = 10 :: cutall known s.
Proof. reflexivity. Qed.

(* ---------- the header and the colour table ---------- *)
Definition table (r g b : Z) : list Z := B "{\colortbl ;\red" ++ dec r ++ B "\green" ++ dec g ++ B "\blue" ++ dec b ++ B ";}" ++ [10].
Lemma dec_digits n : 0 <= n -> Forall (fun c => is_digit c = true) (dec n).
Proof. intros N. destruct (dec_spec n N) as (_ & D & _). rewrite forallb_forall in D. apply Forall_forall. exact D. Qed.
Lemma cut_table_text x y : ~ In 123 x -> cut color_table 0 (x ++ y) = x ++ cut color_table 0 y.
Proof.
  intros N. apply cut_id; [reflexivity|]. intros c r I. unfold color_table. change (B "{\colortbl") with (123 :: B "\colortbl"). cbn [prefix].
  destruct (123 =? c) eqn:Q; [assert (c = 123) by lia; subst; tauto|reflexivity].
Qed.
Lemma cut_table r g b y : 0 <= r -> 0 <= g -> 0 <= b -> cut color_table 0 (table r g b ++ y) = 10 :: cut color_table 0 y.
Proof.
  intros R G Bb. unfold table. set (x := B " ;\red" ++ dec r ++ B "\green" ++ dec g ++ B "\blue" ++ dec b ++ B ";").
  replace ((B "{\colortbl ;\red" ++ dec r ++ B "\green" ++ dec g ++ B "\blue" ++ dec b ++ B ";}" ++ [10]) ++ y) with (123 :: (B "\colortbl" ++ x ++ [125]) ++ 10 :: y) by (unfold x; cbn [app]; rewrite <- ?app_assoc; cbn [app]; rewrite <- ?app_assoc; reflexivity).
  assert (N : forallb (fun c => negb (c =? 125)) x = true).
  { unfold x. rewrite !forallb_app, !andb_true_iff. repeat split; try reflexivity; apply forallb_forall; intros c I.
    all: match goal with I : In ?c (dec ?n) |- _ => pose proof (dec_digits n ltac:(assumption)) as F; rewrite Forall_forall in F; specialize (F c I); unfold is_digit in F; lia end. }
  change (cut color_table 0 (123 :: (B "\colortbl" ++ x ++ [125]) ++ 10 :: y)) with (match color_table (B "{\colortbl" ++ (x ++ [125]) ++ 10 :: y) with Some n => cut color_table (pred n) ((B "\colortbl" ++ x ++ [125]) ++ 10 :: y) | None => 123 :: cut color_table 0 ((B "\colortbl" ++ x ++ [125]) ++ 10 :: y) end).
  unfold color_table at 1. rewrite prefix_app, skipn_len. rewrite <- app_assoc. cbn [app]. rewrite (run_stop _ x 125) by (auto; reflexivity). rewrite skipn_len.
  replace (pred (length (B "{\colortbl") + length x + 1)) with (length (B "\colortbl" ++ x ++ [125])) by (rewrite !app_length; cbn; lia).
  rewrite cut_skip. cbn [app cut]. reflexivity.
Qed.
Definition enc_of (t : list Z) (s : styles) (e : list Z) : list Z :=
  let '(r, g, b) := parse_rgb (color s) in let c := match color s with [] => false | _ => true end in
  rtf_header ++ [10] ++ (if c then table r g b else []) ++ pre (bold s) (italic s) (underline s) c ++ e ++ post (bold s) (italic s) (underline s) c ++ [10; 125].
Lemma encode_shape t s : t <> [] -> good_style s -> encode_rtf t s = Some (enc_of t s (rtf_escape t)).
Proof.
  intros NE G. unfold encode_rtf, enc_of, pre, post, table. destruct t as [|c0 t]; [congruence|]. destruct (good_valid s G) as [EC|V].
  - rewrite EC. cbn [parse_rgb]. destruct (parse_rgb []) as [[r g] b]. rewrite <- !app_assoc. reflexivity.
  - destruct (color s) as [|h c] eqn:EC; [discriminate|]. rewrite V. destruct (parse_rgb (h :: c)) as [[r g] b]. f_equal. rewrite <- !app_assoc. reflexivity.
Qed.
Lemma parse_range c : let '(r, g, b) := parse_rgb c in 0 <= r <= 255 /\ 0 <= g <= 255 /\ 0 <= b <= 255.
Proof.
  unfold parse_rgb. set (v := fold_left _ _ _). clearbody v. change 255 with (Z.ones 8). rewrite !Z.land_ones by lia. change (Z.ones 8) with 255. change (2 ^ 8) with 256. repeat split; lia.
Qed.
Lemma strip_shape t s e : ~ In 123 e -> strip_rtf (enc_of t s e) =
  trim_space (cut (lit (B "}")) 0 (cut (lit (B "{")) 0 (cut control 0 ((match color s with [] => [] | _ => [10] end) ++ cutall known e ++ [10; 125])))).
Proof.
  intros N. unfold strip_rtf, enc_of. pose proof (parse_range (color s)) as PR. destruct (parse_rgb (color s)) as [[r g] b].
  set (c := match color s with [] => false | _ => true end).
  set (body := pre (bold s) (italic s) (underline s) c ++ e ++ post (bold s) (italic s) (underline s) c ++ [10; 125]).
  assert (NB : ~ In 123 body).
  { unfold body, pre, post. rewrite !in_app_iff. destruct (bold s), (italic s), (underline s), c; intros I; repeat (destruct I as [I|I]; [first [exact (N I)|cbv in I; intuition congruence]|]); first [exact (N I)|cbv in I; intuition congruence]. }
  assert (CT : cut color_table 0 (rtf_header ++ [10] ++ (if c then table r g b else []) ++ body) = rtf_header ++ [10] ++ (if c then [10] else []) ++ body).
  { change (rtf_header ++ [10] ++ (if c then table r g b else []) ++ body) with (123 :: (B "\rtf1\ansi\deff0" ++ [10]) ++ (if c then table r g b else []) ++ body).
    change (cut color_table 0 (123 :: (B "\rtf1\ansi\deff0" ++ [10]) ++ (if c then table r g b else []) ++ body)) with (123 :: cut color_table 0 ((B "\rtf1\ansi\deff0" ++ [10]) ++ (if c then table r g b else []) ++ body)).
    rewrite cut_table_text by (intros I; cbv in I; intuition congruence).
    assert (Q : cut color_table 0 body = body) by (rewrite <- (app_nil_r body) at 1; rewrite cut_table_text by auto; apply app_nil_r).
    destruct c; [rewrite cut_table by lia|cbn [app]]; rewrite Q; reflexivity. }
  rewrite CT. unfold trim_prefix at 2. rewrite prefix_app, skipn_len. change (trim_prefix [10] ([10] ++ (if c then [10] else []) ++ body)) with ((if c then [10] else []) ++ body).
  assert (M : cutall known ((if c then [10] else []) ++ body) = (match color s with [] => [] | _ => [10] end) ++ cutall known e ++ [10; 125]).
  { assert (Q : cutall known body = cutall known e ++ [10; 125]) by (apply cutall_body). unfold c. destruct (color s); cbn [app]; [exact Q|]. rewrite cutall_nl. f_equal. exact Q. }
  change (cut cf 0 (cut (lit (B "\ul0 ")) 0 (cut (lit (B "\ul ")) 0 (cut (lit (B "\i0 ")) 0 (cut (lit (B "\i ")) 0 (cut (lit (B "\b0 ")) 0 (cut (lit (B "\b ")) 0 ((if c then [10] else []) ++ body))))))))
    with (cutall known ((if c then [10] else []) ++ body)). rewrite M. reflexivity.
Qed.
