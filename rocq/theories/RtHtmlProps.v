(** C55, C125, C126: rich text through HTML. Here [others] is the table of named character references other than the three that are written
    when escaping; everything holds whatever it is. *)
From Verif Require Import RtModel RtProofs.
Local Open Scope list_scope.
Local Open Scope Z_scope.

(** A style as the API can make it: the colour is absent or #RRGGBB in hexadecimal. *)
Definition hex (c : Z) : Prop := (48 <= c <= 57) \/ (65 <= c <= 70) \/ (97 <= c <= 102).
Definition good_style (s : styles) : Prop := color s = [] \/ exists a b c d e f, color s = [35; a; b; c; d; e; f] /\ Forall hex [a; b; c; d; e; f].
Lemma good_valid s : good_style s -> color s = [] \/ valid_color (color s) = true.
Proof.
  intros [G|(a & b & c & d & e & f & G & F)]; [auto|right]. rewrite G. cbn [valid_color length Nat.eqb andb]. apply forallb_forall. intros x I. rewrite Forall_forall in F. specialize (F x I). unfold hex in F. unfold is_hex, is_digit. lia.
Qed.
Lemma color_no s c : good_style s -> In c [34; 60; 62; 125; 92] -> ~ In c (color s).
Proof.
  intros [G|(a & b & d & e & f & g & G & F)] C I; rewrite G in I; [destruct I|]. rewrite Forall_forall in F. destruct I as [<-|I]; [cbn in C; intuition congruence|]. specialize (F c I). unfold hex in F. cbn in C. intuition lia.
Qed.

(* ---------- C55 ---------- *)
Ltac no60 := let I := fresh in intros I; cbv in I; intuition congruence.
Lemma tag_lit o y : forall x, o = 60 :: x ++ [62] -> ~ In 62 x -> cut tag 0 (o ++ y) = cut tag 0 y.
Proof. intros x -> N. cbn [app]. rewrite <- app_assoc. apply tag_tag. exact N. Qed.
Lemma contains_tag p x y : prefix (60 :: p) ((60 :: x ++ [62]) ++ y) = false -> ~ In 60 x -> contains (60 :: p) ((60 :: x ++ [62]) ++ y) = contains (60 :: p) y.
Proof. intros P N. cbn [app contains] in *. rewrite P. cbn [orb]. rewrite <- app_assoc. rewrite contains_text by exact N. cbn [app contains prefix]. reflexivity. Qed.
Lemma contains_tag_yes p y : contains (60 :: p) ((60 :: p) ++ y) = true.
Proof. cbn [app contains]. change (60 :: p ++ y) with ((60 :: p) ++ y). rewrite prefix_app. reflexivity. Qed.
Lemma first_match_step c r : html_color (c :: r) = None -> first_match html_color (c :: r) = first_match html_color r.
Proof. intros X. cbn [first_match]. rewrite X. reflexivity. Qed.
Lemma first_match_at x c : html_color x = Some c -> first_match html_color x = Some c.
Proof. intros X. destruct x; cbn [first_match]; rewrite X; reflexivity. Qed.
Definition wrap (o c : list Z) (on : bool) (e : list Z) : list Z := if on then o ++ e ++ c else e.

Section H.
Variable others : list Z -> list Z.
(** Decoding the encoding of a non-empty text and a style gives both back. *)
Theorem C55_html : forall t s, t <> [] -> good_style s -> decode_html others (encode_html t s) = (t, s).
Proof using.
  intros t s NE G.
  set (e := escape t).
  assert (E60 : ~ In 60 e) by (apply esc_no; cbn; tauto). assert (E34 : ~ In 34 e) by (apply esc_no; cbn; tauto).
  assert (U : unescape others 0 e = t) by (unfold e; rewrite <- (app_nil_r (escape t)), unescape_escape; apply app_nil_r).
  assert (NEe : e <> []). { destruct t as [|c t]; [congruence|]. unfold e. cbn [escape flat_map]. unfold esc_byte. repeat (destruct (_ =? _); [discriminate|]). discriminate. }
  set (w1 := wrap (B "<strong>") (B "</strong>") (bold s) e). set (w2 := wrap (B "<em>") (B "</em>") (italic s) w1). set (w3 := wrap (B "<u>") (B "</u>") (underline s) w2).
  set (w4 := match color s with [] => w3 | c => B "<span style=""color:" ++ c ++ B """>" ++ w3 ++ B "</span>" end).
  assert (EN : encode_html t s = w4).
  { unfold encode_html. destruct t as [|c t]; [congruence|]. fold e. destruct (is_plain s) eqn:PL; [|reflexivity]. unfold is_plain in PL. unfold w4, w3, w2, w1, wrap.
    destruct (bold s), (italic s), (underline s), (color s); try discriminate. reflexivity. }
  (* stripping *)
  assert (S1 : forall y, cut tag 0 (w1 ++ y) = e ++ cut tag 0 y).
  { intros y. unfold w1, wrap. destruct (bold s); [|apply tag_text; auto]. rewrite <- !app_assoc. rewrite (tag_lit _ _ (B "strong")) by (reflexivity || no60). rewrite tag_text by auto. reflexivity. }
  assert (S2 : forall y, cut tag 0 (w2 ++ y) = e ++ cut tag 0 y).
  { intros y. unfold w2, wrap. destruct (italic s); [|apply S1]. rewrite <- !app_assoc. rewrite (tag_lit _ _ (B "em")) by (reflexivity || no60). rewrite S1. reflexivity. }
  assert (S3 : forall y, cut tag 0 (w3 ++ y) = e ++ cut tag 0 y).
  { intros y. unfold w3, wrap. destruct (underline s); [|apply S2]. rewrite <- !app_assoc. rewrite (tag_lit _ _ (B "u")) by (reflexivity || no60). rewrite S2. reflexivity. }
  assert (S4 : cut tag 0 w4 = e).
  { unfold w4. destruct (color s) as [|h0 c0] eqn:EC; [rewrite <- (app_nil_r w3), S3; apply app_nil_r|]. rewrite <- EC.
    replace (B "<span style=""color:" ++ color s ++ B """>" ++ w3 ++ B "</span>") with ((60 :: (B "span style=""color:" ++ color s ++ [34]) ++ [62]) ++ w3 ++ B "</span>") by (cbn [app]; rewrite <- !app_assoc; reflexivity).
    rewrite (tag_lit _ _ (B "span style=""color:" ++ color s ++ [34])); [|reflexivity|]. 2:{ rewrite !in_app_iff. pose proof (color_no s 62 G ltac:(cbn; tauto)) as Q. intros [I|[I|I]]; [cbv in I; intuition congruence|auto|cbv in I; intuition congruence]. }
    rewrite S3. rewrite <- (app_nil_r (B "</span>")). rewrite (tag_lit _ _ (B "/span")) by (reflexivity || no60). apply app_nil_r. }
  assert (ST : strip_html others w4 = t) by (unfold strip_html; rewrite S4; exact U).
  (* tags *)
  assert (N4 : w4 <> []).
  { unfold w4. destruct (color s); [|discriminate]. unfold w3, wrap. destruct (underline s); [discriminate|]. unfold w2, wrap. destruct (italic s); [discriminate|]. unfold w1, wrap. destruct (bold s); [discriminate|]. exact NEe. }
  assert (T1 : forall p y, In p [B "strong>"; B "b>"; B "em>"; B "i>"; B "u>"] -> contains (60 :: p) (w1 ++ y) = (bold s && list_eqb p (B "strong>")) || contains (60 :: p) y).
  { intros p y I. unfold w1, wrap. destruct (bold s); cbn [andb orb]; [|apply contains_text; auto]. rewrite <- !app_assoc.
    destruct I as [<-|[<-|[<-|[<-|[<-|[]]]]]]; [rewrite list_eqb_refl; apply (contains_tag_yes (B "strong>"))| | | |].
    all: change (B "<strong>") with (60 :: B "strong" ++ [62]); rewrite contains_tag by (reflexivity || no60); rewrite contains_text by auto;
      change (B "</strong>") with (60 :: B "/strong" ++ [62]); rewrite contains_tag by (reflexivity || no60); reflexivity. }
  assert (T2 : forall p y, In p [B "strong>"; B "b>"; B "em>"; B "i>"; B "u>"] -> contains (60 :: p) (w2 ++ y) = (bold s && list_eqb p (B "strong>")) || (italic s && list_eqb p (B "em>")) || contains (60 :: p) y).
  { intros p y I. unfold w2, wrap. destruct (italic s); cbn [andb orb]; [|rewrite T1 by auto; rewrite orb_false_r; reflexivity]. rewrite <- !app_assoc. pose proof (T1 p (B "</em>" ++ y) I) as Q.
    destruct I as [<-|[<-|[<-|[<-|[<-|[]]]]]]; [| |rewrite list_eqb_refl, orb_true_r; apply (contains_tag_yes (B "em>"))| |].
    all: change (B "<em>") with (60 :: B "em" ++ [62]); rewrite contains_tag by (reflexivity || no60); rewrite Q;
      change (B "</em>") with (60 :: B "/em" ++ [62]); rewrite contains_tag by (reflexivity || no60); rewrite ?orb_false_r; reflexivity. }
  assert (T3 : forall p y, In p [B "strong>"; B "b>"; B "em>"; B "i>"; B "u>"] -> contains (60 :: p) (w3 ++ y) = (bold s && list_eqb p (B "strong>")) || (italic s && list_eqb p (B "em>")) || (underline s && list_eqb p (B "u>")) || contains (60 :: p) y).
  { intros p y I. unfold w3, wrap. destruct (underline s); cbn [andb orb]; [|rewrite T2 by auto; rewrite orb_false_r; reflexivity]. rewrite <- !app_assoc. pose proof (T2 p (B "</u>" ++ y) I) as Q.
    destruct I as [<-|[<-|[<-|[<-|[<-|[]]]]]]; [| | | |rewrite list_eqb_refl, orb_true_r; apply (contains_tag_yes (B "u>"))].
    all: change (B "<u>") with (60 :: B "u" ++ [62]); rewrite contains_tag by (reflexivity || no60); rewrite Q;
      change (B "</u>") with (60 :: B "/u" ++ [62]); rewrite contains_tag by (reflexivity || no60); rewrite ?orb_false_r; reflexivity. }
  assert (T4 : forall p, In p [B "strong>"; B "b>"; B "em>"; B "i>"; B "u>"] -> contains (60 :: p) w4 = (bold s && list_eqb p (B "strong>")) || (italic s && list_eqb p (B "em>")) || (underline s && list_eqb p (B "u>"))).
  { intros p I. unfold w4. destruct (color s) as [|h0 c0] eqn:EC.
    - rewrite <- (app_nil_r w3), T3 by auto. destruct I as [<-|[<-|[<-|[<-|[<-|[]]]]]]; rewrite orb_false_r; reflexivity.
    - rewrite <- EC. replace (B "<span style=""color:" ++ color s ++ B """>" ++ w3 ++ B "</span>") with ((60 :: (B "span style=""color:" ++ color s ++ [34]) ++ [62]) ++ w3 ++ B "</span>") by (cbn [app]; rewrite <- !app_assoc; reflexivity).
      rewrite contains_tag. 2:{ destruct I as [<-|[<-|[<-|[<-|[<-|[]]]]]]; reflexivity. } 2:{ rewrite !in_app_iff. pose proof (color_no s 60 G ltac:(cbn; tauto)) as Q. intros [I2|[I2|I2]]; [cbv in I2; intuition congruence|auto|cbv in I2; intuition congruence]. }
      rewrite T3 by auto. destruct I as [<-|[<-|[<-|[<-|[<-|[]]]]]]; rewrite orb_false_r; reflexivity. }
  (* colour *)
  assert (CO : match first_match html_color w4 with Some c => c | None => [] end = color s).
  { assert (W34 : ~ In 34 w3).
    { unfold w3, w2, w1, wrap. destruct (underline s), (italic s), (bold s); rewrite ?in_app_iff; intros I; repeat (destruct I as [I|I]; [first [exact (E34 I)|cbv in I; intuition congruence]|]); first [exact (E34 I)|cbv in I; intuition congruence]. }
    unfold w4. destruct (good_valid s G) as [EC|V]; [rewrite EC, first_match_no34 by auto; reflexivity|].
    destruct (color s) as [|h0 c0] eqn:EC; [discriminate|]. rewrite <- EC in *. change (B "<span style=""color:" ++ color s ++ B """>" ++ w3 ++ B "</span>") with (B "<span " ++ B "style=""color:" ++ color s ++ B """>" ++ w3 ++ B "</span>").
    cbn [app B]. do 6 (rewrite first_match_step by reflexivity).
    rewrite (first_match_at _ (color s)); [reflexivity|apply html_color_at; exact V]. }
  rewrite EN. unfold decode_html. destruct w4 as [|h4 w4'] eqn:EW; [congruence|]. rewrite <- EW in *. rewrite ST, CO.
  change (B "<strong>") with (60 :: B "strong>"). change (B "<b>") with (60 :: B "b>"). change (B "<em>") with (60 :: B "em>"). change (B "<i>") with (60 :: B "i>"). change (B "<u>") with (60 :: B "u>").
  rewrite !T4 by (cbn; tauto). destruct s as [sb si su sc]. cbn [bold italic underline color]. destruct sb, si, su; reflexivity.
Qed.
End H.
Example C55_met : let s := St true false true [35; 97; 66; 48; 49; 50; 51] in good_style s /\
  decode_html (fun _ => []) (encode_html [60; 98; 62; 32; 34; 38; 195; 169] s) = ([60; 98; 62; 32; 34; 38; 195; 169], s).
Proof. cbv zeta. split; [right; do 6 eexists; split; [reflexivity|]; repeat (apply Forall_cons; [unfold hex; lia|]); apply Forall_nil|reflexivity]. Qed.

(* ---------- C125 ---------- *)
(** A document: escaped texts and tags, in any order and nesting. *)
Inductive piece := Text (t : list Z) | Tag (inner : list Z).
Definition ok_piece (p : piece) : Prop := match p with Text _ => True | Tag i => ~ In 62 i end.
Definition show (p : piece) : list Z := match p with Text t => escape t | Tag i => [60] ++ i ++ [62] end.
Definition text_of (p : piece) : list Z := match p with Text t => t | Tag _ => [] end.
(** The plain text of a document is the concatenation of its texts. *)
Theorem C125_plain_text : forall others d, Forall ok_piece d -> strip_html others (flat_map show d) = flat_map text_of d.
Proof.
  intros others d F. unfold strip_html.
  assert (S : cut tag 0 (flat_map show d) = escape (flat_map text_of d)).
  { induction F as [|p d P F IH]; [reflexivity|]. cbn [flat_map]. unfold escape in *. rewrite flat_map_app. destruct p as [t|i]; cbn [show text_of flat_map app].
    - rewrite tag_text by (apply esc_no; cbn; tauto). f_equal. exact IH.
    - rewrite <- app_assoc. cbn [app]. rewrite tag_tag by exact P. exact IH. }
  rewrite S, <- (app_nil_r (escape _)), unescape_escape. apply app_nil_r.
Qed.
Example C125_met : Forall ok_piece [Tag (B "p"); Text (B "a<b"); Tag (B "br/"); Text (B "&amp;")] /\
  flat_map show [Tag (B "p"); Text (B "a<b"); Tag (B "br/"); Text (B "&amp;")] = B "<p>a&lt;b<br/>&amp;amp;" /\ strip_html (fun _ => []) (B "<p>a&lt;b<br/>&amp;amp;") = B "a<b&amp;".
Proof. split; [repeat (apply Forall_cons; [cbv; intuition congruence|]); apply Forall_nil|split; reflexivity]. Qed.

(* ---------- C126 ---------- *)
(** A text with a tag in it: a '<' and a later '>'. *)
Definition has_tag (s : list Z) : Prop := exists a x b, s = a ++ [60] ++ x ++ [62] ++ b.
(** References are replaced after the tags are removed, so tags can appear. *)
Theorem C126_tags_refuted : forall others, exists h, ~ has_tag h /\ strip_html others h = B "<script>" /\ has_tag (strip_html others h).
Proof.
  intros others. exists (B "&lt;script&gt;"). split; [|split; [reflexivity|exists [], (B "script"), []; reflexivity]].
  intros (a & x & b & Q). assert (In 60 (B "&lt;script&gt;")) by (rewrite Q, in_app_iff; cbn; tauto). cbv in H. intuition congruence.
Qed.
Lemma cut_incl m : forall s k c, In c (cut m k s) -> In c s.
Proof. induction s as [|d s IH]; intros k c I; [destruct I|]. cbn [cut] in I. destruct k; [|right; eauto]. destruct (m (d :: s)); [right; eauto|]. destruct I as [<-|I]; [left; auto|right; eauto]. Qed.
Lemma run_all p s : (forall c, In c s -> p c = true) \/ exists c r, skipn (run p s) s = c :: r /\ p c = false.
Proof.
  induction s as [|c s IH]; [left; intros ? []|]. cbn [run]. destruct (p c) eqn:P; [|right; exists c, s; auto].
  destruct IH as [IH|(d & r & Q)]; [left; intros x [<-|I]; auto|right; exists d, r; exact Q].
Qed.
Lemma cut_no_tag : forall s k, ~ has_tag (cut tag k s).
Proof.
  induction s as [|c s IH]; intros k (a & x & b & Q); [destruct a; discriminate|]. cbn [cut] in Q. destruct k; [|exact (IH k (ex_intro _ a (ex_intro _ x (ex_intro _ b Q))))].
  destruct (tag (c :: s)) as [n|] eqn:T; [exact (IH (pred n) (ex_intro _ a (ex_intro _ x (ex_intro _ b Q))))|].
  destruct a as [|d a].
  - cbn [app] in Q. injection Q as -> Q. assert (I : In 62 (cut tag 0 s)) by (rewrite Q, in_app_iff; cbn; tauto). apply cut_incl in I. unfold tag in T.
    destruct (run_all (fun c => negb (c =? 62)) s) as [A|(c & r & A & N)]; [specialize (A 62 I); discriminate|]. rewrite A in T. assert (c = 62) by lia. subst c. discriminate.
  - cbn [app] in Q. injection Q as -> Q. apply (IH 0%nat). exists a, x, b. exact Q.
Qed.
Lemma unescape_no_ref others s : ~ In 38 s -> unescape others 0 s = s.
Proof. induction s as [|c s IH]; intros N; [reflexivity|]. cbn [unescape]. assert (c <> 38) by (intros ->; apply N; left; auto). destruct (c =? 38) eqn:E; [lia|]. f_equal. apply IH. intros I; apply N; right; auto. Qed.
(** Without character references no tag is left. *)
Theorem C276_tags : forall others h, ~ In 38 h -> ~ has_tag (strip_html others h).
Proof. intros others h N. unfold strip_html. rewrite unescape_no_ref by (intros I; apply N; eapply cut_incl; exact I). apply cut_no_tag. Qed.
Example C126_met : ~ In 38 (B "<<b>x</b>>") /\ strip_html (fun _ => []) (B "<<b>x</b>>") = B "x>".
Proof. split; [cbv; intuition congruence|reflexivity]. Qed.

Print Assumptions C55_html. Print Assumptions C125_plain_text. Print Assumptions C126_tags_refuted. Print Assumptions C276_tags.
