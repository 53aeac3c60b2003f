(** The Email and Pattern validators. *)
From Verif Require Import Prelude Utf8 FmModel FmPatModel.
From Coq Require String Ascii.
Import String.StringSyntax.

(* ---------- specification ---------- *)

(** The texts an item sequence stands for. *)
Inductive reads : list item -> list Z -> Prop :=
| r_nil : reads [] []
| r_one p c i s : p c = true -> reads i s -> reads (One p :: i) (c :: s)
| r_opt0 p i s : reads i s -> reads (Opt p :: i) s
| r_opt1 p c i s : p c = true -> reads i s -> reads (Opt p :: i) (c :: s)
| r_many0 p i s : reads i s -> reads (Many p :: i) s
| r_many1 p c i s : p c = true -> reads (Many p :: i) s -> reads (Many p :: i) (c :: s).
(** The text has a part the pattern stands for, at the ends the pattern is tied to. *)
Definition has_match (p : pat) (s : list Z) : Prop :=
  exists a m b, s = a ++ m ++ b /\ reads (its p) m /\ (from_start p = true -> a = []) /\ (to_end p = true -> b = []).

Definition letter (c : Z) : Prop := 97 <= c <= 122 \/ 65 <= c <= 90.
Definition digit (c : Z) : Prop := 48 <= c <= 57.
Definition user_char (c : Z) : Prop := letter c \/ digit c \/ In c (ascii "._%+-").
Definition host_char (c : Z) : Prop := letter c \/ digit c \/ In c (ascii ".-").
(** name@host.tld *)
Definition mail_shape (s : list Z) : Prop :=
  exists u d t, s = u ++ ascii "@" ++ d ++ ascii "." ++ t /\ u <> [] /\ Forall user_char u /\ d <> [] /\ Forall host_char d /\ (2 <= length t)%nat /\ Forall letter t.

(** RFC 5322 3.4.1 and RFC 1123 2.1, unquoted: atoms separated by single dots, an at sign, labels separated by single dots. *)
Definition atom_char (c : Z) : Prop := letter c \/ digit c \/ In c (ascii "!#$%&'*+-/=?^_`{|}~").
Definition dotted (l : list (list Z)) : list Z := match l with [] => [] | a :: r => a ++ flat_map (fun x => ascii "." ++ x) r end.
Definition label (l : list Z) : Prop := l <> [] /\ Forall (fun c => letter c \/ digit c \/ c = 45) l /\ hd 0 l <> 45 /\ last l 0 <> 45.
Definition address (s : list Z) : Prop :=
  exists atoms labels, s = dotted atoms ++ ascii "@" ++ dotted labels /\ atoms <> [] /\ Forall (fun a => a <> [] /\ Forall atom_char a) atoms /\ labels <> [] /\ Forall label labels.

(* ---------- matching ---------- *)

Lemma begins_spec i : forall k s, begins i k s = true <-> exists a b, s = a ++ b /\ reads i a /\ k b = true.
Proof.
  induction i as [|x i IH]; intros k s.
  - cbn [begins]. split; [intros H; exists [], s; repeat split; auto; constructor|]. intros (a & b & -> & R & K). inversion R; subst. exact K.
  - destruct x as [p|p|p]; cbn [begins].
    + destruct s as [|c r].
      * split; [discriminate|]. intros (a & b & E & R & K). inversion R; subst. discriminate.
      * rewrite andb_true_iff, IH. split.
        -- intros (P & a & b & -> & R & K). exists (c :: a), b. repeat split; auto. constructor; auto.
        -- intros (a & b & E & R & K). inversion R as [|p' c' i' s' P R' | | | |]; subst. cbn [app] in E. injection E as -> E. split; auto. exists s', b. auto.
    + induction s as [|c r IHs]; cbn [many].
      * rewrite orb_false_r, IH. split; intros (a & b & E & R & K); exists a, b; repeat split; auto; [constructor; auto|].
        symmetry in E. apply app_eq_nil in E as [-> ->]. inversion R; subst; auto.
      * rewrite orb_true_iff, andb_true_iff, IH, IHs. split.
        -- intros [(a & b & E & R & K)|(P & a & b & -> & R & K)]; [exists a, b; repeat split; auto; apply r_many0; auto|exists (c :: a), b; repeat split; auto; apply r_many1; auto].
        -- intros (a & b & E & R & K). inversion R as [| | | |p' i' s' R'|p' c' i' s' P R']; subst.
           ++ left. exists a, b. auto.
           ++ right. cbn [app] in E. injection E as -> E. split; auto. exists s', b. auto.
    + rewrite orb_true_iff, IH. destruct s as [|c r].
      * split.
        -- intros [(a & b & E & R & K)|H]; [|discriminate]. exists a, b. repeat split; auto. constructor; auto.
        -- intros (a & b & E & R & K). left. exists a, b. repeat split; auto. symmetry in E. apply app_eq_nil in E as [-> ->]. inversion R; subst; auto.
      * rewrite andb_true_iff, IH. split.
        -- intros [(a & b & E & R & K)|(P & a & b & -> & R & K)]; [exists a, b; repeat split; auto; apply r_opt0; auto|exists (c :: a), b; repeat split; auto; apply r_opt1; auto].
        -- intros (a & b & E & R & K). inversion R as [| |p' i' s' R'|p' c' i' s' P R'| |]; subst.
           ++ left. exists a, b. auto.
           ++ right. cbn [app] in E. injection E as -> E. split; auto. exists s', b. auto.
Qed.
Lemma anywhere_spec f s : anywhere f s = true <-> exists a b, s = a ++ b /\ f b = true.
Proof.
  induction s as [|c r IH]; cbn [anywhere].
  - rewrite orb_false_r. split; [intros H; exists [], []; auto|]. intros (a & b & E & K). symmetry in E. apply app_eq_nil in E as [-> ->]. exact K.
  - rewrite orb_true_iff, IH. split.
    + intros [H|(a & b & -> & K)]; [exists [], (c :: r); auto|exists (c :: a), b; auto].
    + intros (a & b & E & K). destruct a as [|x a]; cbn [app] in E; [left; now rewrite E|right]. injection E as -> E. exists a, b. auto.
Qed.
Lemma match_spec p s : match_string p s = true <-> has_match p (runes_of s).
Proof.
  unfold match_string, has_match. set (k := fun r => negb (to_end p) || match r with [] => true | _ => false end).
  assert (K : forall b, k b = true <-> (to_end p = true -> b = [])).
  { intros b. unfold k. destruct (to_end p); cbn; [|split; [discriminate|auto]]. destruct b; split; auto; try discriminate. intros Q. specialize (Q eq_refl). discriminate. }
  destruct (from_start p).
  - rewrite begins_spec. split.
    + intros (m & b & E & R & Q). exists [], m, b. repeat split; auto. now apply K.
    + intros (a & m & b & E & R & A & B). rewrite (A eq_refl) in E. exists m, b. repeat split; auto. now apply K.
  - rewrite anywhere_spec. split.
    + intros (a & r & E & Q). apply begins_spec in Q as (m & b & -> & R & Q). exists a, m, b. repeat split; auto; [discriminate|now apply K].
    + intros (a & m & b & E & R & A & B). exists a, (m ++ b). split; auto. apply begins_spec. exists m, b. repeat split; auto. now apply K.
Qed.

(** Bytes and runes agree on ASCII text, and only there do the runes stay below 128. *)
Lemma decode_low p : p <> [] -> fst (decode_rune p) < 128 -> decode_rune p = (hd 0 p, 1%nat).
Proof.
  destruct p as [|b r]; [congruence|]. intros _. cbn [decode_rune hd]. destruct (b <? 128) eqn:L; [reflexivity|].
  unfold rune_error, seqlen, ok2, lo2, hi2, cont. intros H.
  repeat match type of H with
  | context [match ?l with [] => _ | _ => _ end] => destruct l
  | context [if ?b then _ else _] => destruct b eqn:?
  end; cbn [fst] in H; exfalso; repeat match goal with E : context [if ?b then _ else _] |- _ => destruct b eqn:? end; lia.
Qed.
Lemma runes_low p : Forall (fun c => c < 128) (runes_of p) -> runes_of p = p.
Proof.
  unfold runes_of. remember (length p) as n eqn:En. assert (L : (length p <= n)%nat) by lia. clear En. revert p L.
  induction n as [|n IH]; intros p L F.
  - destruct p; [reflexivity|cbn in L; lia].
  - destruct p as [|b r]; [reflexivity|]. cbn [decode_all] in *. pose proof (decode_low (b :: r) ltac:(discriminate)) as D.
    destruct (decode_rune (b :: r)) as [c m]. inversion F as [|c' l' F1 F2]; subst. specialize (D F1). injection D as -> ->. cbn [hd skipn] in *. f_equal. apply IH; auto. cbn in L. lia.
Qed.
Lemma runes_ascii p : Forall (fun c => c < 128) p -> runes_of p = p.
Proof.
  unfold runes_of. remember (length p) as n eqn:En. assert (L : (length p <= n)%nat) by lia. clear En. revert p L.
  induction n as [|n IH]; intros p L F; (destruct p as [|b r]; [reflexivity|]); [cbn in L; lia|]. inversion F as [|b' r' F1 F2]; subst.
  cbn [decode_all decode_rune]. rewrite (proj2 (Z.ltb_lt _ _) F1). cbn [skipn]. f_equal. apply IH; auto. cbn in L. lia.
Qed.

Lemma reads_one p i s : reads (One p :: i) s <-> exists c r, s = c :: r /\ p c = true /\ reads i r.
Proof. split; [intros R; inversion R; subst; eauto|intros (c & r & -> & P & R); constructor; auto]. Qed.
Lemma reads_many p i s : reads (Many p :: i) s <-> exists a b, s = a ++ b /\ Forall (fun c => p c = true) a /\ reads i b.
Proof.
  split.
  - remember (Many p :: i) as l eqn:El. intros R. induction R; try discriminate.
    + injection El as -> ->. exists [], s. auto.
    + destruct (IHR El) as (a & b & -> & A & B). injection El as -> ->. exists (c :: a), b. auto.
  - intros (a & b & -> & A & B). induction A as [|c a C A IHA]; cbn [app]; [apply r_many0; auto|apply r_many1; auto].
Qed.
(** One or more. *)
Lemma reads_plus p i s : reads (One p :: Many p :: i) s <-> exists a b, s = a ++ b /\ a <> [] /\ Forall (fun c => p c = true) a /\ reads i b.
Proof.
  rewrite reads_one. split.
  - intros (c & r & -> & P & R). apply reads_many in R as (a & b & -> & A & B). exists (c :: a), b. repeat split; auto. discriminate.
  - intros (a & b & -> & N & A & B). destruct a as [|c a]; [congruence|]. inversion A; subst. exists c, (a ++ b). repeat split; auto. apply reads_many. eauto.
Qed.

(* ---------- C322 ---------- *)

(** The pattern written in the code is one of the modelled language. *)
Theorem C322_email_modelled : exists e, email = Some e.
Proof. eexists. reflexivity. Qed.

Definition cu : Z -> bool := c_or (c_range 97 122) (c_or (c_range 65 90) (c_or (c_range 48 57) (c_or (c_lit 46) (c_or (c_lit 95) (c_or (c_lit 37) (c_or (c_lit 43) (c_or (c_lit 45) c_none))))))).
Definition ch : Z -> bool := c_or (c_range 97 122) (c_or (c_range 65 90) (c_or (c_range 48 57) (c_or (c_lit 46) (c_or (c_lit 45) c_none)))).
Definition cl : Z -> bool := c_or (c_range 97 122) (c_or (c_range 65 90) c_none).
Lemma email_pat : compile email_text = Some (Pat true [One cu; Many cu; One (c_lit 64); One ch; Many ch; One (c_lit 46); One cl; One cl; Many cl] true).
Proof. reflexivity. Qed.
Lemma cu_ok c : cu c = true <-> user_char c.
Proof. unfold cu, user_char, letter, digit, c_or, c_range, c_lit, c_none. change (ascii "._%+-") with [46; 95; 37; 43; 45]. cbn [In]. lia. Qed.
Lemma ch_ok c : ch c = true <-> host_char c.
Proof. unfold ch, host_char, letter, digit, c_or, c_range, c_lit, c_none. change (ascii ".-") with [46; 45]. cbn [In]. lia. Qed.
Lemma cl_ok c : cl c = true <-> letter c.
Proof. unfold cl, letter, c_or, c_range, c_none. lia. Qed.
Lemma forall_iff {X} (P Q : X -> Prop) l : (forall x, P x <-> Q x) -> Forall P l <-> Forall Q l.
Proof. intros H. rewrite !Forall_forall. firstorder. Qed.
Lemma reads_email s : reads [One cu; Many cu; One (c_lit 64); One ch; Many ch; One (c_lit 46); One cl; One cl; Many cl] s <-> mail_shape s.
Proof.
  unfold mail_shape. change (ascii "@") with [64]. change (ascii ".") with [46]. rewrite reads_plus. split.
  - intros (u & b & -> & N & U & R). apply reads_one in R as (c & r & -> & P & R). unfold c_lit in P. apply Z.eqb_eq in P as ->.
    apply reads_plus in R as (d & b & -> & ND & D & R). apply reads_one in R as (c & r2 & -> & P & R). unfold c_lit in P. apply Z.eqb_eq in P as ->.
    apply reads_one in R as (c & r3 & -> & P1 & R). apply reads_one in R as (c2 & r4 & -> & P2 & R). apply reads_many in R as (t & z & -> & T & R). inversion R; subst. rewrite app_nil_r.
    exists u, d, (c :: c2 :: t). repeat split; auto.
    + now apply (forall_iff _ _ _ cu_ok).
    + now apply (forall_iff _ _ _ ch_ok).
    + cbn. lia.
    + apply (forall_iff _ _ _ cl_ok). auto.
  - intros (u & d & t & -> & N & U & ND & D & L & T). exists u, ([64] ++ d ++ [46] ++ t). split; [reflexivity|]. split; [auto|]. split; [now apply (forall_iff _ _ _ cu_ok)|].
    apply reads_one. exists 64, (d ++ [46] ++ t). repeat split. apply reads_plus. exists d, ([46] ++ t). split; [reflexivity|]. split; [auto|]. split; [now apply (forall_iff _ _ _ ch_ok)|].
    apply reads_one. exists 46, t. repeat split. apply (forall_iff _ _ _ cl_ok) in T. destruct t as [|a [|b t]]; try (cbn in L; lia). inversion T as [|a' l' T1 T2]; subst. inversion T2 as [|b' l' T3 T4]; subst.
    constructor; auto. constructor; auto. apply reads_many. exists t, []. rewrite app_nil_r. repeat split; auto. constructor.
Qed.
Lemma shape_ascii s : mail_shape s -> Forall (fun c => 33 <= c < 127) s.
Proof.
  intros (u & d & t & -> & _ & U & _ & D & _ & T). change (ascii "@") with [64]. change (ascii ".") with [46].
  assert (G1 : forall c, user_char c -> 33 <= c < 127) by (intros c; unfold user_char, letter, digit; change (ascii "._%+-") with [46; 95; 37; 43; 45]; cbn [In]; lia).
  assert (G2 : forall c, host_char c -> 33 <= c < 127) by (intros c; unfold host_char, letter, digit; change (ascii ".-") with [46; 45]; cbn [In]; lia).
  assert (G3 : forall c, letter c -> 33 <= c < 127) by (intros c; unfold letter; lia).
  rewrite !Forall_app. split; [exact (Forall_impl _ G1 U)|]. split; [constructor; [lia|constructor]|]. split; [exact (Forall_impl _ G2 D)|]. split; [constructor; [lia|constructor]|exact (Forall_impl _ G3 T)].
Qed.

(** Email accepts exactly the texts of the form name@host.tld ; anything else is told so. *)
Theorem C322_email : forall e s, email = Some e ->
  (e (VStr s) = None <-> mail_shape s) /\ (e (VStr s) = None \/ e (VStr s) = Some (ascii "invalid email format")).
Proof.
  intros e s E. unfold email in E. rewrite email_pat in E. apply some_inj in E. subst e. cbv beta iota. set (p := Pat _ _ _).
  split; [|destruct (match_string p s); auto]. transitivity (match_string p s = true); [destruct (match_string p s); split; congruence|].
  rewrite match_spec. unfold has_match. cbn [its from_start to_end p]. split.
  - intros (a & m & b & E & R & A & B). rewrite (A eq_refl), (B eq_refl), app_nil_r in E. cbn [app] in E. apply reads_email in R. rewrite <- E in R.
    rewrite <- (runes_low s); [exact R|]. eapply Forall_impl; [|apply (shape_ascii _ R)]. cbn. lia.
  - intros H. exists [], s, []. rewrite app_nil_r. cbn [app]. repeat split; auto; [|now apply reads_email].
    apply runes_ascii. eapply Forall_impl; [|apply (shape_ascii _ H)]. cbn. lia.
Qed.
(** What is accepted is printable ASCII without blanks, has exactly one at sign and at least six characters. *)
Theorem C322_accepted : forall e s, email = Some e -> e (VStr s) = None ->
  Forall (fun c => 33 <= c < 127) s /\ (6 <= length s)%nat /\ exists a b, s = a ++ [64] ++ b /\ ~ In 64 a /\ ~ In 64 b.
Proof.
  intros e s E H. apply (C322_email e s E) in H. split; [now apply shape_ascii|]. destruct H as (u & d & t & -> & N & U & ND & D & L & T).
  change (ascii "@") with [64] in *. change (ascii ".") with [46] in *. split.
  - rewrite !app_length. cbn [length]. destruct u; [congruence|]. destruct d; [congruence|]. cbn [length]. lia.
  - exists u, (d ++ [46] ++ t). split; [reflexivity|]. rewrite Forall_forall in U, D, T. split.
    + intros I. apply U in I. unfold user_char, letter, digit in I. change (ascii "._%+-") with [46; 95; 37; 43; 45] in I. cbn [In] in I. lia.
    + rewrite !in_app_iff. intros [I|[I|I]].
      * apply D in I. unfold host_char, letter, digit in I. change (ascii ".-") with [46; 45] in I. cbn [In] in I. lia.
      * cbn [In] in I. lia.
      * apply T in I. unfold letter in I. lia.
Qed.
(** Values that are no text are refused as such, by both. *)
Theorem C322_not_text : forall e p v, email = Some e -> (forall s, v <> VStr s) ->
  e v = Some (ascii "invalid type (expected string)") /\ pattern p v = Some (ascii "invalid type (expected string)").
Proof.
  intros e p v E H. unfold email in E. rewrite email_pat in E. apply some_inj in E. subst e. destruct v as [|s|n]; auto. destruct (H s eq_refl).
Qed.
Example C322_ex : option_map (fun e => (e (VStr (ascii "Ann.Lee+x@mail.example.org")), e (VStr (ascii "ann@example")), e (VStr (ascii "a b@c.de")))) email
  = Some (None, Some (ascii "invalid email format"), Some (ascii "invalid email format")).
Proof. reflexivity. Qed.

(* ---------- C323 ---------- *)

(** Pattern accepts exactly the texts with a match somewhere, or at the ends the pattern names. *)
Theorem C323_pattern : forall text p s, compile text = Some p ->
  (pattern p (VStr s) = None <-> has_match p (runes_of s)) /\ (pattern p (VStr s) = None \/ pattern p (VStr s) = Some (ascii "invalid format")).
Proof.
  intros text p s C. cbn [pattern]. split.
  - rewrite <- match_spec. destruct (match_string p s); split; congruence.
  - destruct (match_string p s); auto.
Qed.

(** The patterns, written down. *)
Inductive elem := Ch (c : Z) | Rg (a b : Z).
Inductive single := Char (c : Z) | Escaped (c : Z) | Dot | Perl (c : Z) | Set_ (negated : bool) (l : list elem) (dash : bool).
Inductive times := Once | OneOrMore | AnyNumber | AtMostOnce | Exactly (n : list Z) | AtLeast (n : list Z) | Between (n m : list Z).
Definition write_elem (e : elem) : list Z := match e with Ch c => [c] | Rg a b => [a] ++ ascii "-" ++ [b] end.
Definition write_single (x : single) : list Z :=
  match x with
  | Char c => [c]
  | Escaped c | Perl c => ascii "\" ++ [c]
  | Dot => ascii "."
  | Set_ n l d => ascii "[" ++ (if n then ascii "^" else []) ++ flat_map write_elem l ++ (if d then ascii "-" else []) ++ ascii "]"
  end.
Definition write_times (k : times) : list Z :=
  match k with
  | Once => [] | OneOrMore => ascii "+" | AnyNumber => ascii "*" | AtMostOnce => ascii "?"
  | Exactly n => ascii "{" ++ n ++ ascii "}" | AtLeast n => ascii "{" ++ n ++ ascii ",}"
  | Between n m => ascii "{" ++ n ++ ascii "," ++ m ++ ascii "}"
  end.
Definition written (start : bool) (l : list (single * times)) (stop : bool) : list Z :=
  (if start then ascii "^" else []) ++ flat_map (fun x => write_single (fst x) ++ write_times (snd x)) l ++ (if stop then ascii "$" else []).
(** What is allowed where. *)
Definition value_of (ds : list Z) : nat := fold_left (fun a d => 10 * a + Z.to_nat (d - 48))%nat ds 0%nat.
Definition numeral (ds : list Z) : Prop := ds <> [] /\ Forall digit ds /\ (hd 0 ds = 48 -> length ds = 1%nat) /\ (value_of ds <= 1000)%nat.
Definition class_char (c : Z) : Prop := ~ In c (ascii "[]\^-").
Definition good_elem (e : elem) : Prop := match e with Ch c => class_char c | Rg a b => class_char a /\ class_char b /\ a <= b end.
Definition punctuation (c : Z) : Prop := 33 <= c < 127 /\ ~ letter c /\ ~ digit c.
Definition good_single (x : single) : Prop :=
  match x with
  | Char c => ~ In c (ascii "$()*+?[\]^{|}.")
  | Escaped c => punctuation c
  | Dot => True
  | Perl c => In c (ascii "dDwWsS")
  | Set_ _ l d => Forall good_elem l /\ (l <> [] \/ d = true)
  end.
Definition good_times (k : times) : Prop :=
  match k with Exactly n | AtLeast n => numeral n | Between n m => numeral n /\ numeral m /\ (value_of n <= value_of m)%nat | _ => True end.
(** The characters an expression stands for and how many of them. *)
Definition in_elem (c : Z) (e : elem) : Prop := match e with Ch a => c = a | Rg a b => a <= c <= b end.
Definition blank (c : Z) : Prop := In c [9; 10; 12; 13; 32].
Definition word_char (c : Z) : Prop := letter c \/ digit c \/ c = 95.
Definition in_perl (k c : Z) : Prop :=
  (k = 100 /\ digit c) \/ (k = 68 /\ ~ digit c) \/ (k = 119 /\ word_char c) \/ (k = 87 /\ ~ word_char c) \/ (k = 115 /\ blank c) \/ (k = 83 /\ ~ blank c).
Definition in_single (x : single) (c : Z) : Prop :=
  match x with
  | Char a | Escaped a => c = a
  | Dot => c <> 10
  | Perl k => in_perl k c
  | Set_ n l d => let inside := Exists (in_elem c) l \/ (d = true /\ c = 45) in if n then ~ inside else inside
  end.
Definition how_many (k : times) (n : nat) : Prop :=
  match k with
  | Once => n = 1%nat | OneOrMore => (1 <= n)%nat | AnyNumber => True | AtMostOnce => (n <= 1)%nat
  | Exactly m => n = value_of m | AtLeast m => (value_of m <= n)%nat | Between a b => (value_of a <= n <= value_of b)%nat
  end.
(** The texts the sequence stands for: one piece for each expression. *)
Definition stands (l : list (single * times)) (s : list Z) : Prop :=
  exists pieces, s = concat pieces /\ Forall2 (fun x piece => Forall (in_single (fst x)) piece /\ how_many (snd x) (length piece)) l pieces.

(* the parser reads back what is written *)
Definition means (q : Z -> bool) (P : Z -> Prop) : Prop := forall c, q c = true <-> P c.
Ltac zb := rewrite ?(proj2 (Z.eqb_neq _ _)) by (intros ?; subst; cbn [In] in *; tauto).
Lemma p_class_written l : forall f (d : bool) (t : list Z), Forall good_elem l -> (length (flat_map write_elem l ++ (if d then [45] else []) ++ [93])%Z <= f)%nat ->
  exists q, p_class f (flat_map write_elem l ++ (if d then [45] else []) ++ [93] ++ t) = Some (q, t) /\ means q (fun c => Exists (in_elem c) l \/ (d = true /\ c = 45)).
Proof.
  induction l as [|e l IH]; intros f d t G L.
  - cbn [flat_map app] in *. destruct d; cbn [app length] in *.
    + destruct f as [|[|f]]; [lia..|]. cbn. exists (c_or (c_lit 45) c_none). split; [reflexivity|]. intros c. unfold c_or, c_lit, c_none. rewrite Exists_nil. lia.
    + destruct f as [|f]; [lia|]. cbn. exists c_none. split; [reflexivity|]. intros c. unfold c_none. rewrite Exists_nil. intuition discriminate.
  - inversion G as [|e' l' Ge Gl]; subst. set (rest := flat_map write_elem l ++ (if d then [45] else []) ++ [93] ++ t).
    destruct e as [a|a b]; cbn [good_elem] in Ge; cbn [flat_map write_elem].
    + cbn [flat_map write_elem app length] in L. destruct f as [|f]; [lia|]. assert (Lf : (length (flat_map write_elem l ++ (if d then [45] else []) ++ [93])%Z <= f)%nat) by lia.
      destruct (IH f d t Gl Lf) as (q & E & M). fold rest in E. rewrite <- app_assoc. fold rest. cbn [app].
      unfold class_char in Ge. change (ascii "[]\^-") with [91; 93; 92; 94; 45] in Ge. cbn [In] in Ge.
      cbn [p_class]. replace (a =? 93) with false by lia. replace ((a =? 91) || (a =? 92)) with false by lia.
      assert (NB : (hd 0 rest =? 45) && negb (hd 93 (tl rest) =? 93) = false).
      { unfold rest. destruct l as [|e l]; cbn [flat_map app].
        - destruct d; reflexivity.
        - inversion Gl as [|e' l' Ge2 Gl2]; subst. rewrite andb_false_iff. left. destruct e as [x|x y]; cbn [good_elem write_elem app hd] in *; [|destruct Ge2 as (Ge2 & _)];
          unfold class_char in Ge2; change (ascii "[]\^-") with [91; 93; 92; 94; 45] in Ge2; cbn [In] in Ge2; lia. }
      rewrite NB, E. exists (c_or (c_lit a) q). split; [reflexivity|]. intros c. unfold c_or, c_lit. rewrite orb_true_iff, (M c), Exists_cons. cbn [in_elem]. rewrite Z.eqb_eq. tauto.
    + destruct Ge as (Ga & Gb & AB). cbn [flat_map write_elem app length] in L. change (ascii "-") with [45] in *. cbn [app length] in L. destruct f as [|f]; [lia|].
      assert (Lf : (length (flat_map write_elem l ++ (if d then [45] else []) ++ [93])%Z <= f)%nat) by lia.
      destruct (IH f d t Gl Lf) as (q & E & M). fold rest in E. rewrite <- app_assoc. fold rest. cbn [app].
      unfold class_char in Ga, Gb. change (ascii "[]\^-") with [91; 93; 92; 94; 45] in *. cbn [In] in *.
      cbn [p_class hd tl]. replace (a =? 93) with false by lia. replace ((a =? 91) || (a =? 92)) with false by lia. replace ((45 =? 45) && negb (b =? 93)) with true by lia.
      replace ((b <? a) || (b =? 91) || (b =? 92)) with false by lia. rewrite E. exists (c_or (c_range a b) q). split; [reflexivity|]. intros c. unfold c_or, c_range. rewrite orb_true_iff, (M c), Exists_cons. cbn [in_elem]. rewrite andb_true_iff, !Z.leb_le. tauto.
Qed.
Lemma p_num_written ds : Forall digit ds -> forall acc t, is_digit (hd 0 t) = false -> p_num acc (ds ++ t) = (fold_left (fun a d => 10 * a + Z.to_nat (d - 48))%nat ds acc, t).
Proof.
  intros F. induction F as [|c ds C F IH]; intros acc t N; cbn [app fold_left].
  - destruct t as [|c r]; [reflexivity|]. cbn [hd] in N. unfold is_digit in N. cbn [p_num]. now rewrite N.
  - cbn [p_num]. unfold digit in C. replace ((48 <=? c) && (c <=? 57)) with true by lia. now apply IH.
Qed.
Lemma p_int_written ds t : numeral ds -> is_digit (hd 0 t) = false -> p_int (ds ++ t) = Some (value_of ds, t).
Proof.
  intros (N & F & Z0 & _) T. unfold p_int. rewrite (p_num_written ds F 0%nat t T). fold (value_of ds).
  destruct ds as [|c ds]; [congruence|]. inversion F as [|c' ds' C F']; subst. cbn [app hd tl] in *. unfold digit in C.
  replace (is_digit c) with true by (unfold is_digit; lia). replace ((c =? 48) && is_digit (hd 0 (ds ++ t))) with false; [reflexivity|]. symmetry.
  destruct (Z.eqb_spec c 48) as [E|E]; [|reflexivity]. specialize (Z0 E). destruct ds; [exact T|cbn in Z0; lia].
Qed.
(** What one written expression is compiled to. *)
Definition items_of (q : Z -> bool) (k : times) : list item :=
  match k with
  | Once => [One q] | OneOrMore => [One q; Many q] | AnyNumber => [Many q] | AtMostOnce => [Opt q]
  | Exactly n => repeat (One q) (value_of n) | AtLeast n => repeat (One q) (value_of n) ++ [Many q]
  | Between n m => repeat (One q) (value_of n) ++ repeat (Opt q) (value_of m - value_of n)
  end.
Lemma p_rep_written q k t : good_times k -> ~ In (hd 0 t) (ascii "+*?{") -> p_rep q (write_times k ++ t) = Some (items_of q k, t).
Proof.
  intros G N. change (ascii "+*?{") with [43; 42; 63; 123] in N. cbn [In] in N. destruct k as [| | | |n|n|n m]; cbn [write_times good_times items_of] in *.
  - cbn [app]. destruct t as [|c r]; [reflexivity|]. cbn [hd p_rep] in *. replace (c =? 43) with false by lia. replace (c =? 42) with false by lia. replace (c =? 63) with false by lia. replace (c =? 123) with false by lia. reflexivity.
  - reflexivity.
  - reflexivity.
  - reflexivity.
  - change (ascii "{") with [123]. change (ascii "}") with [125]. rewrite <- !app_assoc. cbn [app p_rep Z.eqb Pos.eqb]. rewrite (p_int_written n (125 :: t) G eq_refl).
    destruct G as (_ & _ & _ & G). replace (Nat.leb (value_of n) 1000) with true by (symmetry; now apply Nat.leb_le). reflexivity.
  - change (ascii "{") with [123]. change (ascii ",}") with [44; 125]. rewrite <- !app_assoc. cbn [app p_rep Z.eqb Pos.eqb]. rewrite (p_int_written n (44 :: 125 :: t) G eq_refl).
    destruct G as (_ & _ & _ & G). replace (Nat.leb (value_of n) 1000) with true by (symmetry; now apply Nat.leb_le). reflexivity.
  - destruct G as (Gn & Gm & LE). change (ascii "{") with [123]. change (ascii "}") with [125]. change (ascii ",") with [44]. rewrite <- !app_assoc. cbn [app p_rep Z.eqb Pos.eqb].
    rewrite (p_int_written n (44 :: m ++ 125 :: t) Gn eq_refl). cbn [hd tl Z.eqb Pos.eqb negb].
    replace (hd 0 (m ++ 125 :: t) =? 125) with false; [|symmetry; destruct Gm as (Nm & Fm & _); destruct m as [|c m]; [congruence|]; inversion Fm as [|c' m' C F']; subst; unfold digit in C; cbn [app hd]; lia].
    rewrite (p_int_written m (125 :: t) Gm eq_refl). destruct Gn as (_ & _ & _ & Gn). destruct Gm as (_ & _ & _ & Gm).
    replace (Nat.leb (value_of n) 1000) with true by (symmetry; now apply Nat.leb_le). replace (Nat.leb (value_of n) (value_of m)) with true by (symmetry; now apply Nat.leb_le). replace (Nat.leb (value_of m) 1000) with true by (symmetry; now apply Nat.leb_le). reflexivity.
Qed.

Lemma p_single_written x t : good_single x -> exists q, p_single (write_single x ++ t) = Some (q, t) /\ means q (in_single x).
Proof.
  intros G. destruct x as [c|c| |c|n l d]; cbn [write_single good_single] in *.
  - change (ascii "$()*+?[\]^{|}.") with [36; 40; 41; 42; 43; 63; 91; 92; 93; 94; 123; 124; 125; 46] in G. cbn [In] in G. cbn [app p_single].
    replace (c =? 91) with false by lia. replace (c =? 92) with false by lia. replace (existsb (Z.eqb c) [36; 40; 41; 42; 43; 63; 93; 94; 123; 124; 125]) with false by (cbn [existsb]; lia). replace (c =? 46) with false by lia.
    exists (c_lit c). split; [reflexivity|]. intros y. unfold c_lit. apply Z.eqb_eq.
  - change (ascii "\") with [92]. cbn [app p_single hd tl Z.eqb Pos.eqb]. destruct G as (R & NL & ND). unfold letter, digit in *. unfold p_escape. replace (is_punct c) with true by (unfold is_punct; lia).
    exists (c_lit c). split; [reflexivity|]. intros y. unfold c_lit. apply Z.eqb_eq.
  - exists c_any. split; [reflexivity|]. intros y. unfold c_any. cbn [in_single]. lia.
  - change (ascii "dDwWsS") with [100; 68; 119; 87; 115; 83] in G. change (ascii "\") with [92]. cbn [app p_single hd tl Z.eqb Pos.eqb].
    assert (D : means c_digit digit) by (intros y; unfold c_digit, c_range, digit; lia).
    assert (W : means c_word word_char) by (intros y; unfold c_word, c_digit, c_or, c_range, c_lit, word_char, letter, digit; lia).
    assert (B : means c_space blank) by (intros y; unfold c_space, c_or, c_lit, blank; cbn [In]; lia).
    assert (NM : forall q P, means q P -> means (c_not q) (fun y => ~ P y)) by (intros q P H y; unfold c_not; specialize (H y); destruct (q y); cbn; intuition congruence).
    assert (PK : forall k q (P : Z -> Prop), means q P -> (forall y, in_perl k y <-> P y) -> means q (in_single (Perl k))) by (intros k q P H E y; cbn [in_single]; rewrite (E y); apply H).
    cbn [In] in G. destruct G as [<-|[<-|[<-|[<-|[<-|[<-|[]]]]]]]; eexists; (split; [reflexivity|]).
    + apply (PK _ _ _ D). intros y. unfold in_perl. intuition lia.
    + apply (PK _ _ _ (NM _ _ D)). intros y. unfold in_perl. intuition lia.
    + apply (PK _ _ _ W). intros y. unfold in_perl. intuition lia.
    + apply (PK _ _ _ (NM _ _ W)). intros y. unfold in_perl. intuition lia.
    + apply (PK _ _ _ B). intros y. unfold in_perl. intuition lia.
    + apply (PK _ _ _ (NM _ _ B)). intros y. unfold in_perl. intuition lia.
  - destruct G as (G & NE). change (ascii "[") with [91]. change (ascii "^") with [94]. change (ascii "-") with [45]. change (ascii "]") with [93].
    set (body := flat_map write_elem l ++ (if d then [45] else []) ++ [93] ++ t).
    assert (B : hd 0 body <> 93 /\ hd 0 body <> 94).
    { unfold body. destruct l as [|e l]; cbn [flat_map app].
      - destruct NE as [NE|NE]; [congruence|]. rewrite NE. cbn. lia.
      - inversion G as [|e' l' Ge Gl]; subst. destruct e as [x|x y]; cbn [good_elem write_elem app hd] in *; [|destruct Ge as (Ge & _)];
        unfold class_char in Ge; change (ascii "[]\^-") with [91; 93; 92; 94; 45] in Ge; cbn [In] in Ge; lia. }
    replace (([91] ++ (if n then [94] else []) ++ flat_map write_elem l ++ (if d then [45] else []) ++ [93]) ++ t) with (91 :: (if n then [94] else []) ++ body) by (unfold body; destruct n; cbn [app]; rewrite <- ?app_assoc; reflexivity).
    cbn [p_single Z.eqb Pos.eqb]. cbv zeta.
    replace (hd 0 ((if n then [94] else []) ++ body) =? 94) with n by (destruct n; cbn [app hd]; lia).
    replace (if n then tl ((if n then [94] else []) ++ body) else (if n then [94] else []) ++ body) with body by (destruct n; reflexivity).
    replace (hd 0 body =? 93) with false by lia.
    destruct (p_class_written l (length body) d t G) as (q & E & M); [unfold body; rewrite !app_length; cbn [length]; lia|].
    unfold body at 2. rewrite E. exists (if n then c_not q else q). split; [reflexivity|]. intros y. cbn [in_single]. cbv zeta. specialize (M y). destruct n; unfold c_not; [|exact M].
    destruct (q y); cbn; intuition congruence.
Qed.
Lemma next_no_rep l stop : Forall (fun x => good_single (fst x) /\ good_times (snd x)) l ->
  ~ In (hd 0 (flat_map (fun x => write_single (fst x) ++ write_times (snd x)) l ++ (if stop : bool then [36] else []))) (ascii "+*?{").
Proof.
  intros F. change (ascii "+*?{") with [43; 42; 63; 123]. cbn [In]. destruct l as [|[x k] l]; cbn [flat_map app].
  - destruct stop; cbn; lia.
  - inversion F as [|x' l' (G & _) F']; subst. cbn [fst snd] in *. destruct x as [c|c| |c|n s d]; cbn [write_single good_single] in *.
    + change (ascii "$()*+?[\]^{|}.") with [36; 40; 41; 42; 43; 63; 91; 92; 93; 94; 123; 124; 125; 46] in G. cbn [In] in G. cbn [app hd]. lia.
    + cbn. lia.
    + cbn. lia.
    + cbn. lia.
    + cbn. lia.
Qed.
Lemma start_single x t : good_single x -> exists c r, write_single x ++ t = c :: r /\ c <> 36 /\ c <> 94.
Proof.
  intros G. destruct x as [c|c| |c|n s d]; cbn [write_single good_single] in *.
  - change (ascii "$()*+?[\]^{|}.") with [36; 40; 41; 42; 43; 63; 91; 92; 93; 94; 123; 124; 125; 46] in G. cbn [In] in G. exists c, t. split; [reflexivity|lia].
  - exists 92. eexists. split; [reflexivity|lia].
  - exists 46. eexists. split; [reflexivity|lia].
  - exists 92. eexists. split; [reflexivity|lia].
  - exists 91. eexists. split; [reflexivity|lia].
Qed.
Lemma p_items_step f c r : c <> 36 -> p_items (S f) (c :: r) =
  match p_single (c :: r) with None => None | Some (p, r') =>
    match p_rep p r' with None => None | Some (i, t) => match p_items f t with None => None | Some (is, e) => Some (i ++ is, e) end end end.
Proof. intros N. cbn [p_items]. destruct r as [|d r]; [|destruct c as [|c|c]; try reflexivity; do 6 (destruct c as [c|c|]; try reflexivity)]; destruct c as [|c|c]; try reflexivity; do 6 (destruct c as [c|c|]; try reflexivity); congruence. Qed.
Lemma p_items_written l : forall f (stop : bool), Forall (fun x => good_single (fst x) /\ good_times (snd x)) l -> (length l < f)%nat ->
  exists qs, p_items f (flat_map (fun x => write_single (fst x) ++ write_times (snd x)) l ++ (if stop then [36] else [])) = Some (flat_map (fun y => items_of (fst y) (snd y)) qs, stop) /\
    Forall2 (fun x y => means (fst y) (in_single (fst x)) /\ snd y = snd x) l qs.
Proof.
  induction l as [|[x k] l IH]; intros f stop F L; (destruct f as [|f]; [cbn in L; lia|]).
  - exists []. split; [destruct stop; reflexivity|constructor].
  - inversion F as [|x' l' (G & T) F']; subst. cbn [fst snd] in *. destruct (IH f stop F' ltac:(cbn in L; lia)) as (qs & E & Q).
    cbn [flat_map fst snd]. rewrite <- !app_assoc.
    destruct (start_single x (write_times k ++ flat_map (fun x => write_single (fst x) ++ write_times (snd x)) l ++ (if stop then [36] else [])) G) as (c & r & W & N & _).
    rewrite W, p_items_step by exact N. rewrite <- W.
    destruct (p_single_written x (write_times k ++ flat_map (fun x => write_single (fst x) ++ write_times (snd x)) l ++ (if stop then [36] else [])) G) as (q & E1 & M).
    rewrite E1, (p_rep_written q k _ T (next_no_rep l stop F')), E. exists ((q, k) :: qs). split; [reflexivity|]. constructor; [split; [exact M|reflexivity]|exact Q].
Qed.

(* what the items stand for *)
Lemma reads_app i : forall j s, reads (i ++ j) s <-> exists a b, s = a ++ b /\ reads i a /\ reads j b.
Proof.
  intros j s. split.
  - remember (i ++ j) as l eqn:El. intros R. revert i El. induction R as [|p c i' s P R IH|p i' s R IH|p c i' s P R IH|p i' s R IH|p c i' s P R IH]; intros i El.
    + symmetry in El. apply app_eq_nil in El as [-> ->]. exists [], []. repeat split; constructor.
    + destruct i as [|x i]; cbn [app] in El; [subst j; exists [], (c :: s); repeat split; [constructor|constructor; auto]|]. injection El as <- El. destruct (IH i El) as (a & b & -> & A & B). exists (c :: a), b. repeat split; auto. constructor; auto.
    + destruct i as [|x i]; cbn [app] in El; [subst j; exists [], s; repeat split; [constructor|apply r_opt0; auto]|]. injection El as <- El. destruct (IH i El) as (a & b & -> & A & B). exists a, b. repeat split; auto. apply r_opt0; auto.
    + destruct i as [|x i]; cbn [app] in El; [subst j; exists [], (c :: s); repeat split; [constructor|apply r_opt1; auto]|]. injection El as <- El. destruct (IH i El) as (a & b & -> & A & B). exists (c :: a), b. repeat split; auto. apply r_opt1; auto.
    + destruct i as [|x i]; cbn [app] in El; [subst j; exists [], s; repeat split; [constructor|apply r_many0; auto]|]. injection El as <- El. destruct (IH i El) as (a & b & -> & A & B). exists a, b. repeat split; auto. apply r_many0; auto.
    + destruct i as [|x i]; cbn [app] in El; [subst j; exists [], (c :: s); repeat split; [constructor|apply r_many1; auto]|]. destruct (IH (x :: i) El) as (a & b & -> & A & B). injection El as <- El. exists (c :: a), b. repeat split; auto. apply r_many1; auto.
  - intros (a & b & -> & A & B). induction A; cbn [app]; auto; [constructor|apply r_opt0|apply r_opt1|apply r_many0|apply r_many1]; auto.
Qed.
Lemma reads_ones p n : forall s, reads (repeat (One p) n) s <-> Forall (fun c => p c = true) s /\ length s = n.
Proof.
  induction n as [|n IH]; intros s; cbn [repeat].
  - split; [intros R; inversion R; subst; auto|intros [_ L]; destruct s; [constructor|discriminate]].
  - rewrite reads_one. split.
    + intros (c & r & -> & P & R). apply IH in R as [F L]. split; [constructor; auto|cbn; lia].
    + intros [F L]. destruct s as [|c r]; [discriminate|]. inversion F; subst. exists c, r. repeat split; auto. apply IH. split; auto.
Qed.
Lemma reads_opts p n : forall s, reads (repeat (Opt p) n) s <-> Forall (fun c => p c = true) s /\ (length s <= n)%nat.
Proof.
  induction n as [|n IH]; intros s; cbn [repeat].
  - split; [intros R; inversion R; subst; auto|intros [_ L]; destruct s; [constructor|cbn in L; lia]].
  - split.
    + intros R. inversion R as [| |p' i' s' R'|p' c' i' s' P R'| |]; subst; apply IH in R' as [F L]; split; auto; cbn; lia.
    + intros [F L]. destruct s as [|c r]; [apply r_opt0, IH; auto with arith|]. inversion F; subst. apply r_opt1; auto. apply IH. split; auto. cbn in L. lia.
Qed.
Lemma reads_items q k s : good_times k -> reads (items_of q k) s <-> Forall (fun c => q c = true) s /\ how_many k (length s).
Proof.
  intros G. assert (ON : forall i, reads (Many q :: i) s <-> exists a b, s = a ++ b /\ Forall (fun c => q c = true) a /\ reads i b) by (intros; apply reads_many).
  destruct k as [| | | |n|n|n m]; cbn [items_of how_many].
  - apply (reads_ones q 1).
  - rewrite reads_plus. split.
    + intros (a & b & -> & N & F & R). inversion R; subst. rewrite app_nil_r. split; auto. destruct a; [congruence|cbn; lia].
    + intros [F L]. exists s, []. rewrite app_nil_r. repeat split; auto; [destruct s; [cbn in L; lia|discriminate]|constructor].
  - rewrite reads_many. split; [intros (a & b & -> & F & R); inversion R; subst; rewrite app_nil_r; auto|intros [F _]; exists s, []; rewrite app_nil_r; repeat split; auto; constructor].
  - apply (reads_opts q 1).
  - apply reads_ones.
  - rewrite reads_app. split.
    + intros (a & b & -> & A & B). apply reads_ones in A as [FA LA]. apply reads_many in B as (b1 & b2 & -> & FB & R). inversion R; subst. rewrite app_nil_r. split; [apply Forall_app; auto|rewrite app_length; lia].
    + intros [F L]. exists (firstn (value_of n) s), (skipn (value_of n) s). split; [symmetry; apply firstn_skipn|]. rewrite <- (firstn_skipn (value_of n) s) in F. apply Forall_app in F as [F1 F2]. split.
      * apply reads_ones. split; auto. rewrite firstn_length. lia.
      * apply reads_many. exists (skipn (value_of n) s), []. rewrite app_nil_r. repeat split; auto. constructor.
  - destruct G as (_ & _ & LE). rewrite reads_app. split.
    + intros (a & b & -> & A & B). apply reads_ones in A as [FA LA]. apply reads_opts in B as [FB LB]. split; [apply Forall_app; auto|rewrite app_length; lia].
    + intros [F L]. exists (firstn (value_of n) s), (skipn (value_of n) s). split; [symmetry; apply firstn_skipn|]. rewrite <- (firstn_skipn (value_of n) s) in F. apply Forall_app in F as [F1 F2]. split.
      * apply reads_ones. split; auto. rewrite firstn_length. lia.
      * apply reads_opts. split; auto. rewrite skipn_length. lia.
Qed.
Lemma reads_stands l qs : Forall2 (fun x y => means (fst y) (in_single (fst x)) /\ snd y = snd x) l qs -> Forall (fun x => good_single (fst x) /\ good_times (snd x)) l ->
  forall s, reads (flat_map (fun y => items_of (fst y) (snd y)) qs) s <-> stands l s.
Proof.
  intros Q. induction Q as [|[x k] [q k'] l qs (M & E) Q IH]; intros F s; cbn [fst snd flat_map] in *.
  - split; [intros R; inversion R; subst; exists []; split; [reflexivity|constructor]|]. intros (ps & -> & P). inversion P; subst. constructor.
  - subst k'. inversion F as [|x' l' (G & T) F']; subst. cbn [fst snd] in *. rewrite reads_app. split.
    + intros (a & b & -> & A & B). apply (reads_items q k a T) in A as [FA HA]. apply (IH F') in B as (ps & -> & P). exists (a :: ps). split; [reflexivity|]. constructor; [|exact P].
      cbn [fst snd]. split; [|exact HA]. apply (forall_iff _ _ a M). exact FA.
    + intros (ps & -> & P). inversion P as [|x' a l' ps' (FA & HA) P']; subst. cbn [fst snd] in *. exists a, (concat ps'). split; [reflexivity|]. split.
      * apply (reads_items q k a T). split; [|exact HA]. apply (forall_iff _ _ a M). exact FA.
      * apply (IH F'). exists ps'. auto.
Qed.

(** Every pattern that is written so is compiled, and accepts exactly the texts with a part it stands for,
    at the ends it is tied to. *)
Theorem C323_written : forall start l stop text,
  Forall (fun x => good_single (fst x) /\ good_times (snd x)) l -> runes_of text = written start l stop -> ~ In 65533 (runes_of text) ->
  exists p, compile text = Some p /\ forall s,
    pattern p (VStr s) = None <-> exists a m b, runes_of s = a ++ m ++ b /\ stands l m /\ (start = true -> a = []) /\ (stop = true -> b = []).
Proof.
  intros start l stop text F W NE. unfold compile. rewrite W in *. replace (existsb (Z.eqb 65533) (written start l stop)) with false.
  2:{ symmetry. apply Bool.not_true_iff_false. intros X. apply existsb_exists in X as (c & I & E). apply Z.eqb_eq in E as <-. contradiction. }
  unfold compile_runes, written in *. change (ascii "^") with [94] in *. change (ascii "$") with [36] in *. set (body := flat_map _ l ++ (if stop then [36] else [])).
  assert (H : (hd 0 ((if start then [94] else []) ++ body) =? 94) = start).
  { destruct start; [reflexivity|]. cbn [app]. unfold body. destruct l as [|[x k] l]; cbn [flat_map app]; [destruct stop; reflexivity|]. inversion F as [|x' l' (G & T) F']; subst. cbn [fst snd] in *. rewrite <- !app_assoc.
    destruct (start_single x (write_times k ++ flat_map (fun x => write_single (fst x) ++ write_times (snd x)) l ++ (if stop then [36] else [])) G) as (c & r & E & _ & N). rewrite E. cbn [hd]. lia. }
  rewrite H. replace (if start then tl ((if start then [94] else []) ++ body) else (if start then [94] else []) ++ body) with body by (destruct start; reflexivity).
  assert (L : (length l < S (length ((if start then [94] else []) ++ body)%Z))%nat).
  { assert (LL : (length l <= length (flat_map (fun x => write_single (fst x) ++ write_times (snd x)) l))%nat).
    { clear. induction l as [|[x k] l IH]; [cbn; lia|]. cbn [flat_map length fst snd]. rewrite !app_length.
      assert (1 <= length (write_single x))%nat; [|lia]. destruct x; cbn [write_single]; rewrite ?app_length; change (ascii "[") with [91]; change (ascii "\") with [92]; change (ascii ".") with [46]; cbn [length]; lia. }
    unfold body. rewrite !app_length. lia. }
  destruct (p_items_written l _ stop F L) as (qs & E & Q). fold body in E. rewrite E. eexists. split; [reflexivity|]. intros s. cbn [pattern]. set (p := Pat _ _ _).
  transitivity (match_string p s = true); [destruct (match_string p s); split; congruence|]. rewrite match_spec. unfold has_match. cbn [its from_start to_end p].
  split; intros (a & m & b & E1 & R & A & B); exists a, m, b; repeat split; auto; apply (reads_stands l qs Q F); exact R.
Qed.
(** A word of letters and digits accepts exactly the texts that contain it. *)
Theorem C323_words : forall w, Forall (fun c => letter c \/ digit c) w ->
  exists p, compile w = Some p /\ forall s, pattern p (VStr s) = None <-> exists a b, runes_of s = a ++ w ++ b.
Proof.
  intros w W. set (l := map (fun c => (Char c, Once)) w).
  assert (Rw : runes_of w = w) by (apply runes_ascii; eapply Forall_impl; [|exact W]; unfold letter, digit; cbn; lia).
  assert (Ew : flat_map (fun x => write_single (fst x) ++ write_times (snd x)) l = w) by (unfold l; clear; induction w as [|c w IH]; [reflexivity|]; cbn [map flat_map fst snd write_single write_times app]; now rewrite IH).
  destruct (C323_written false l false w) as (p & C & H).
  - unfold l. apply Forall_map. eapply Forall_impl; [|exact W]. cbn beta. intros c I. cbn [fst snd good_single good_times]. split; auto.
    change (ascii "$()*+?[\]^{|}.") with [36; 40; 41; 42; 43; 63; 91; 92; 93; 94; 123; 124; 125; 46]. unfold letter, digit in I. cbn [In]. lia.
  - unfold written. rewrite Ew, Rw, app_nil_r. reflexivity.
  - rewrite Rw. intros I. rewrite Forall_forall in W. apply W in I. unfold letter, digit in I. lia.
  - exists p. split; [exact C|]. intros s. rewrite (H s).
    assert (SW : forall m, stands l m <-> m = w).
    { unfold l, stands. clear. induction w as [|c w IH]; intros m; cbn [map].
      - split; [intros (ps & -> & P); inversion P; reflexivity|intros ->; exists []; split; [reflexivity|constructor]].
      - split.
        + intros (ps & -> & P). inversion P as [|x a l' ps' (FA & HA) P']; subst. cbn [fst snd in_single how_many] in *. cbn [concat].
          destruct a as [|y [|z a]]; try discriminate. inversion FA; subst. cbn [app]. f_equal; [assumption|]. apply IH. exists ps'. auto.
        + intros ->. destruct (proj2 (IH w) eq_refl) as (ps & E & P). exists ([c] :: ps). cbn [concat app]. split; [now rewrite <- E|]. constructor; [split; [constructor; [reflexivity|constructor]|reflexivity]|exact P]. }
    split.
    + intros (a & m & b & E & S & _). apply SW in S as ->. eauto.
    + intros (a & b & E). exists a, w, b. repeat split; auto; try discriminate. now apply SW.
Qed.
(** A telephone number: ^\+?[\d... written out, with a repetition of each kind. *)
Definition phone : list (single * times) :=
  [(Escaped 43, AtMostOnce); (Set_ false [Rg 48 57] true, OneOrMore); (Char 47, AnyNumber); (Perl 100, Between [50] [49; 48]); (Dot, Exactly [51]); (Set_ true [Rg 97 122; Ch 95] false, AtLeast [48])].
Example C323_written_ex : written true phone true = ascii "^\+?[0-9-]+/*\d{2,10}.{3}[^a-z_]{0,}$" /\ Forall (fun x => good_single (fst x) /\ good_times (snd x)) phone.
Proof.
  split; [reflexivity|]. unfold phone. repeat (apply Forall_cons; [cbn [fst snd good_single good_times]; split|]); try exact Logic.I; try apply Forall_nil.
  - unfold punctuation, letter, digit. lia.
  - split; [|left; discriminate]. apply Forall_cons; [|apply Forall_nil]. unfold good_elem, class_char. vm_compute. intuition discriminate.
  - vm_compute. intuition discriminate.
  - vm_compute. auto.
  - unfold numeral, digit. split; [|split]; [split; [discriminate|split; [repeat (apply Forall_cons; [lia|]); apply Forall_nil|split; [reflexivity|apply Nat.leb_le; reflexivity]]]|split; [discriminate|split; [repeat (apply Forall_cons; [lia|]); apply Forall_nil|split; [discriminate|apply Nat.leb_le; reflexivity]]]|apply Nat.leb_le; reflexivity].
  - unfold numeral, digit. split; [discriminate|split; [repeat (apply Forall_cons; [lia|]); apply Forall_nil|split; [discriminate|apply Nat.leb_le; reflexivity]]].
  - split; [|left; discriminate]. repeat (apply Forall_cons; [unfold good_elem, class_char; vm_compute; intuition discriminate|]). apply Forall_nil.
  - unfold numeral, digit. split; [discriminate|split; [repeat (apply Forall_cons; [lia|]); apply Forall_nil|split; [reflexivity|apply Nat.leb_le; reflexivity]]].
Qed.
Example C323_ex : option_map (fun p => (pattern p (VStr (ascii "+49-30-1234")), pattern p (VStr (ascii "49")))) (compile (ascii "^\+?[0-9-]+-[0-9]{4,}$"))
  = Some (None, Some (ascii "invalid format")).
Proof. reflexivity. Qed.

(* ---------- C324: which addresses are accepted (violated) ---------- *)

(** Addresses whose names use only . _ % + - besides letters and digits and whose last label has two or more letters are accepted. *)
Theorem C324_plain_addresses_partial : forall e u labels tld, email = Some e ->
  u <> [] -> Forall user_char u -> labels <> [] -> Forall label labels -> (2 <= length tld)%nat -> Forall letter tld ->
  e (VStr (u ++ ascii "@" ++ dotted (labels ++ [tld]))) = None.
Proof.
  intros e u labels tld E N U NL LL T2 T. apply (C322_email e _ E). exists u, (dotted labels), tld. split; [|repeat split; auto].
  - f_equal. f_equal. destruct labels as [|a r]; [congruence|]. cbn [app dotted]. rewrite flat_map_app. cbn [flat_map]. now rewrite app_nil_r, <- app_assoc.
  - destruct labels as [|a r]; [congruence|]. inversion LL as [|a' r' A B]; subst. destruct A as [A _]. cbn [dotted]. intros Q. apply app_eq_nil in Q as [Q _]. congruence.
  - assert (G : forall l, label l -> Forall host_char l).
    { intros l (_ & F & _). eapply Forall_impl; [|exact F]. unfold host_char. change (ascii ".-") with [46; 45]. cbn [In]. intuition. }
    destruct labels as [|a r]; [constructor|]. inversion LL as [|a' r' A B]; subst. cbn [dotted]. apply Forall_app. split; [auto|]. apply Forall_forall. intros x I. apply in_flat_map in I as (l & L1 & L2).
    rewrite Forall_forall in B. specialize (G l (B l L1)). change (ascii ".") with [46] in L2. cbn [app In] in L2. destruct L2 as [<-|L2]; [right; right; cbn; auto|]. rewrite Forall_forall in G. auto.
Qed.
(** The accepted text is no address at all: an address has no two dots in a row. *)
Fixpoint dd (s : list Z) : bool := match s with [] => false | a :: r => (a =? 46) && (hd 0 r =? 46) || dd r end.
Lemma dd_plain a r : ~ In 46 a -> dd (a ++ r) = dd r.
Proof. induction a as [|c a IH]; intros N; [reflexivity|]. cbn [app dd]. rewrite (proj2 (Z.eqb_neq c 46)) by (intros ->; apply N; left; reflexivity). cbn [andb orb]. apply IH. intros I. apply N. right. exact I. Qed.
Lemma dd_dotted l r : Forall (fun a => a <> [] /\ ~ In 46 a) l -> dd (dotted l ++ r) = dd r.
Proof.
  destruct l as [|a l]; [reflexivity|]. intros F. inversion F as [|a' l' [_ A] B]; subst. cbn [dotted]. rewrite <- app_assoc, dd_plain by auto. clear A F.
  induction B as [|x l [X N] B IH]; [reflexivity|]. cbn [flat_map]. change (ascii ".") with [46]. rewrite <- !app_assoc. cbn [app dd]. replace (hd 0 _ =? 46) with false.
  - rewrite andb_false_r. cbn [orb]. rewrite dd_plain by auto. exact IH.
  - destruct x as [|c x]; [congruence|]. cbn [app hd]. symmetry. apply Z.eqb_neq. intros ->. apply N. left. reflexivity.
Qed.
Lemma bad_is_no_address : ~ address (ascii "a..b@-..example.com").
Proof.
  intros (atoms & labels & E & _ & A & _ & L). assert (Q : dd (ascii "a..b@-..example.com") = true) by reflexivity. rewrite E in Q. rewrite dd_dotted in Q.
  - change (ascii "@") with [64] in Q. cbn [app dd Z.eqb andb orb] in Q. rewrite <- (app_nil_r (dotted labels)), dd_dotted in Q; [discriminate|]. eapply Forall_impl; [|exact L].
    cbn beta. intros l (N & F & _). split; auto. intros I. rewrite Forall_forall in F. apply F in I. unfold letter, digit in I. lia.
  - eapply Forall_impl; [|exact A]. cbn beta. intros a (N & F). split; auto. intros I. rewrite Forall_forall in F. apply F in I. unfold atom_char, letter, digit in I.
    destruct I as [I|[I|I]]; [lia|lia|]. vm_compute in I. intuition discriminate.
Qed.
(** A correct address can be refused, and one with empty atoms and labels accepted. *)
Theorem C324_addresses_refuted : exists e good bad, email = Some e /\ address good /\ e (VStr good) <> None /\
  ~ address bad /\ e (VStr bad) = None.
Proof.
  destruct C322_email_modelled as (e & E). exists e, (ascii "o'brien@example.com"), (ascii "a..b@-..example.com"). split; [exact E|]. split; [|split; [|split; [exact bad_is_no_address|]]].
  - exists [ascii "o'brien"], [ascii "example"; ascii "com"]. split; [reflexivity|]. split; [discriminate|]. split; [|split; [discriminate|]].
    + constructor; [|constructor]. split; [discriminate|]. apply Forall_forall. intros c I. unfold atom_char, letter, digit.
      assert (Q : In c (ascii "o'brien") -> c = 39 \/ 97 <= c <= 122) by (change (ascii "o'brien") with [111; 39; 98; 114; 105; 101; 110]; cbn [In]; lia). destruct (Q I) as [-> |B]; [right; right; cbn; auto 10|auto].
    + assert (G : forall l, l <> [] -> Forall (fun c => 97 <= c <= 122) l -> label l).
      { intros l NL F. split; [exact NL|]. split; [eapply Forall_impl; [|exact F]; unfold letter; cbn; lia|]. rewrite Forall_forall in F. split.
        - destruct l as [|c l]; [congruence|]. cbn. specialize (F c (or_introl eq_refl)). lia.
        - destruct (exists_last NL) as (l' & c & ->). rewrite last_last. assert (97 <= c <= 122) by (apply F, in_or_app; right; left; reflexivity). lia. }
      change (ascii "example") with [101; 120; 97; 109; 112; 108; 101]. change (ascii "com") with [99; 111; 109].
      constructor; [apply G; [discriminate|repeat (apply Forall_cons; [lia|]); apply Forall_nil]|]. constructor; [apply G; [discriminate|repeat (apply Forall_cons; [lia|]); apply Forall_nil]|]. constructor.
  - intros Q. apply (C322_email e _ E) in Q. destruct Q as (u & d & t & Eq & _ & U & _ & D & _ & T).
    assert (I : In 39 (u ++ ascii "@" ++ d ++ ascii "." ++ t)) by (rewrite <- Eq; cbn; auto). change (ascii "@") with [64] in I. change (ascii ".") with [46] in I. rewrite !in_app_iff in I. rewrite Forall_forall in U, D, T.
    destruct I as [I|[I|[I|[I|I]]]]; [apply U in I; unfold user_char, letter, digit in I; change (ascii "._%+-") with [46; 95; 37; 43; 45] in I|cbn [In] in I|apply D in I; unfold host_char, letter, digit in I; change (ascii ".-") with [46; 45] in I|cbn [In] in I|apply T in I; unfold letter in I]; cbn [In] in I; lia.
  - revert E. unfold email. rewrite email_pat. intros E. apply some_inj in E. subst e. reflexivity.
Qed.

Print Assumptions C322_email_modelled. Print Assumptions C322_email. Print Assumptions C322_accepted. Print Assumptions C322_not_text.
Print Assumptions C323_pattern. Print Assumptions C323_written. Print Assumptions C323_words. Print Assumptions C324_plain_addresses_partial.
Print Assumptions C324_addresses_refuted.
