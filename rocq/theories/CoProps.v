(** Terminals of package core: immutability, capability detection, geometry. *)
From Verif Require Import Prelude Text CoModel.
From Verif Require TmModel.
From Coq Require Import String.
Notation length := List.length.
Close Scope string_scope.

(* ---------- vocabulary ---------- *)

(** Consistent capabilities: one of the four depths; mouse, alternate screen and cursor control
    only with ANSI. *)
Definition consistent (c : caps) : Prop :=
  In (depth c) [0; 8; 256; 16777216] /\ (ansi c = false -> mouse c = false /\ altscreen c = false /\ cursor c = false).
Definition nothing : caps := Caps false 0 false false false.
Definition full (d : Z) : caps := Caps true d true true true.
Notation word := codes (only parsing).
(** Contains w somewhere. *)
Definition has_word (s w : list Z) : Prop := exists a b, s = a ++ w ++ b.
(** The same ASCII letters, ignoring case. *)
Definition same_letter (c d : Z) : Prop := c = d \/ (65 <= c <= 90 /\ d = c + 32).
Definition ignoring_case (s w : list Z) : Prop := Forall2 same_letter s w.
Definition ascii (s : list Z) : Prop := Forall (fun c => 0 <= c < 128) s.
Definition lower_word (w : list Z) : Prop := Forall (fun c => ~ (65 <= c <= 90)) w.

(* ---------- lemmas ---------- *)

Lemma eqs_iff a b : eqs a b = true <-> a = b.
Proof. apply list_eqb_eq. Qed.
Lemma eqs_not a b : a <> b -> eqs a b = false.
Proof. intros H. destruct (eqs a b) eqn:E; auto. apply eqs_iff in E. contradiction. Qed.
Lemma isnil_iff s : isnil s = true <-> s = [].
Proof. destruct s; split; intros; try discriminate; auto. Qed.
Lemma prefix_iff p : forall s, prefixb p s = true <-> exists b, s = p ++ b.
Proof.
  induction p as [|x p IH]; intros s; cbn.
  - split; [exists s; reflexivity|auto].
  - destruct s as [|y s]; [split; [discriminate|intros (b & E); discriminate]|].
    rewrite andb_true_iff, IH, Z.eqb_eq. split.
    + intros (-> & b & ->). now exists b.
    + intros (b & E). split; [congruence|]. exists b. congruence.
Qed.
Lemma contains_iff s w : containsb s w = true <-> has_word s w.
Proof.
  unfold has_word. induction s as [|c s IH]; cbn [containsb]; rewrite orb_true_iff, prefix_iff.
  - split.
    + intros [(b & E)|]; [|discriminate]. exists [], b. exact E.
    + intros (a & b & E). left. exists b. destruct a; [exact E|discriminate].
  - rewrite IH. split.
    + intros [(b & E)|(a & b & E)]; [exists [], b; exact E|exists (c :: a), b; rewrite E; reflexivity].
    + intros (a & b & E). destruct a as [|x a]; [left; exists b; exact E|right; exists a, b]. cbn in E. congruence.
Qed.
Lemma lower_iff s : forall w, ascii s -> lower_word w -> (lower s = w <-> ignoring_case s w).
Proof.
  unfold ignoring_case, lower. induction s as [|c s IH]; intros w A L; cbn [map].
  - split; [intros <-; constructor|inversion 1; reflexivity].
  - inversion A as [|? ? A1 A2]; subst. replace (c =? 304) with false by lia. replace (c =? 8490) with false by lia. split.
    + intros <-. inversion L as [|? ? L1 L2]; subst. constructor; [|apply IH; auto].
      unfold same_letter. destruct ((65 <=? c) && (c <=? 90)) eqn:E; [right; lia|now left].
    + inversion 1 as [|? d ? w' S F]; subst. inversion L as [|? ? L1 L2]; subst. f_equal; [|apply IH; auto].
      destruct S as [->|[S ->]]; [replace ((65 <=? d) && (d <=? 90)) with false by lia; reflexivity|replace ((65 <=? c) && (c <=? 90)) with true by lia; reflexivity].
Qed.
Lemma new_caps_consistent a d m al c : consistent (new_caps a d m al c).
Proof.
  unfold consistent, new_caps. destruct a; cbn [negb]; unfold DNone, D8, D256, DTrue.
  all: split; [|cbn; auto; discriminate].
  all: cbn [depth]; destruct ((d =? 0) || (d =? 8) || (d =? 256) || (d =? 16777216)) eqn:E; cbn; lia.
Qed.
Lemma detect_consistent p e : consistent (detect p e).
Proof.
  unfold detect, force_color, detect_windows, detect_macos, detect_unix, none_caps.
  repeat (match goal with |- context [if ?b then _ else _] => destruct b | |- context [match p with _ => _ end] => destruct p end; try apply new_caps_consistent).
Qed.

(* ---------- C219 ---------- *)

Section Terminals.
Variable T : Type.
Notation st := (heap T * list addr)%type.
Definition start : st := ([], []).
(** Every result is an object that exists, its size is at least 1x1, its capabilities are
    consistent and it is not in raw mode. *)
Definition good (t : dterm T) : Prop :=
  1 <= width (tsize T t) /\ 1 <= height (tsize T t) /\ consistent (tcaps T t) /\ (forall r, traw T t = Some r -> enabled T r = false).
Definition inv (s : st) : Prop := Forall (fun a => (a < length (fst s))%nat) (snd s) /\ Forall good (fst s).

Lemma good_new c : consistent c -> good (new_dterm T c).
Proof using. clear. intros H. unfold good, new_dterm. cbn. split; [lia|]. split; [lia|]. split; [exact H|discriminate]. Qed.
Lemma write_last (h : heap T) t f : write T (h ++ [t]) (length h) f = h ++ [f t].
Proof using.
  clear. unfold write. rewrite nth_error_app2, Nat.sub_diag by lia. cbn [nth_error].
  induction h as [|x h IH]; cbn [app length set_nth]; [reflexivity|]. now rewrite IH.
Qed.
(** One call either changes nothing, or names an existing object again, or adds an object. *)
Lemma step_cases (h : heap T) (vs : list addr) (c : call T) : Forall (fun a => (a < length h)%nat) vs ->
  run1 T (h, vs) c = (h, vs) \/
  (exists v a, nth_error vs v = Some a /\ c = CWithRawMode T v None /\ run1 T (h, vs) c = (h, vs ++ [a])) \/
  (exists t, run1 T (h, vs) c = (h ++ [t], vs ++ [length h]) /\
     match c with
     | CNew _ => t = new_dterm T nothing
     | CAuto _ g e => t = new_dterm T (auto_detect g e)
     | CWithCaps _ None => t = new_dterm T nothing
     | CWithCaps _ (Some c) => t = new_dterm T (mk_caps c)
     | CWithSize _ v s => exists a t0, nth_error vs v = Some a /\ nth_error h a = Some t0 /\ t = Term T (tcaps T t0) (traw T t0) (new_size (width s) (height s))
     | CWithRawMode _ v s => exists a t0 r, nth_error vs v = Some a /\ nth_error h a = Some t0 /\ new_rawmode T s = Some r /\ t = Term T (tcaps T t0) (Some r) (tsize T t0)
     end).
Proof using.
  intros V. unfold run1. destruct c as [|g e|[cc|]|v s|v s].
  - right; right. eexists. split; reflexivity.
  - right; right. eexists. split; reflexivity.
  - right; right. eexists. split; reflexivity.
  - right; right. eexists. split; reflexivity.
  - destruct (nth_error vs v) as [a|] eqn:E; [|now left]. unfold withSize. destruct (nth_error h a) as [t|] eqn:E2; [|now left].
    cbn [alloc]. unfold alloc. rewrite write_last. right; right. eexists. split; [reflexivity|]. exists a, t. auto.
  - destruct (nth_error vs v) as [a|] eqn:E; [|now left]. unfold withRawMode. destruct (nth_error h a) as [t|] eqn:E2; [|now left].
    destruct s as [s|]; cbn [new_rawmode].
    + unfold alloc. rewrite write_last. right; right. eexists. split; [reflexivity|]. exists a, t, (Raw T false s). auto.
    + right; left. exists v, a. auto.
Qed.
Lemma step_inv s c : inv s -> inv (run1 T s c) /\ exists h' vs', fst (run1 T s c) = fst s ++ h' /\ snd (run1 T s c) = snd s ++ vs'.
Proof using.
  destruct s as [h vs]. intros [V G]. cbn [fst snd] in *.
  destruct (step_cases h vs c V) as [E|[(v & a & E1 & _ & E)|(t & E & K)]]; rewrite E; cbn [fst snd].
  - split; [split; assumption|]. exists [], []. now rewrite !app_nil_r.
  - split; [|exists [], [a]; now rewrite app_nil_r]. split; [|assumption]. cbn. apply Forall_app. split; [assumption|]. constructor; [|constructor].
    rewrite Forall_forall in V. apply V. eapply nth_error_In; eauto.
  - split; [|exists [t], [length h]; auto]. split; cbn [fst snd].
    + rewrite app_length. cbn [length]. apply Forall_app. split; [|constructor; [lia|constructor]]. eapply Forall_impl; [|exact V]. cbn. lia.
    + apply Forall_app. split; [assumption|]. constructor; [|constructor].
      assert (GN : forall t0 a0, nth_error h a0 = Some t0 -> good t0) by (intros t0 a0 N; rewrite Forall_forall in G; apply G; eapply nth_error_In; eauto).
      destruct c as [|g e|[cc|]|v s0|v s0].
      * subst t. apply good_new. apply (new_caps_consistent false 0 false false false).
      * subst t. apply good_new, detect_consistent.
      * subst t. apply good_new. destruct cc as [[[[? ?] ?] ?] ?]. apply new_caps_consistent.
      * subst t. apply good_new. apply (new_caps_consistent false 0 false false false).
      * destruct K as (a & t0 & _ & N & ->). destruct (GN _ _ N) as (_ & _ & C & R). unfold good. cbn [tsize tcaps traw new_size width height].
        split; [destruct (width s0 <? 1) eqn:?; lia|]. split; [destruct (height s0 <? 1) eqn:?; lia|]. split; assumption.
      * destruct K as (a & t0 & r & _ & N & Er & ->). destruct (GN _ _ N) as (W & H & C & _). unfold good. cbn [tsize tcaps traw].
        split; [exact W|]. split; [exact H|]. split; [exact C|]. intros r' Hr. assert (r' = r) by congruence. subst r'.
        destruct s0; cbn in Er; [|discriminate]. apply (f_equal (fun o => match o with Some x => enabled T x | None => false end)) in Er. cbn in Er. congruence.
Qed.
Lemma run_inv cs : forall s, inv s -> inv (run T cs s) /\ exists h' vs', fst (run T cs s) = fst s ++ h' /\ snd (run T cs s) = snd s ++ vs'.
Proof using.
  unfold run. induction cs as [|c cs IH]; intros s I; cbn [fold_left].
  - split; [exact I|]. exists [], []. now rewrite !app_nil_r.
  - destruct (step_inv s c I) as (I1 & h1 & v1 & E1 & F1). destruct (IH _ I1) as (I2 & h2 & v2 & E2 & F2). split; [exact I2|].
    exists (h1 ++ h2), (v1 ++ v2). rewrite E2, F2, E1, F1, !app_assoc. auto.
Qed.
Lemma inv_start : inv start.
Proof using. split; constructor. Qed.
Lemma observe_stable s h' vs' v o : observe T s v = Some o -> observe T (fst s ++ h', snd s ++ vs') v = Some o.
Proof using.
  unfold observe. cbn [fst snd]. destruct (nth_error (snd s) v) as [a|] eqn:E; [|discriminate].
  rewrite nth_error_app1 by (apply nth_error_Some; congruence). rewrite E.
  destruct (nth_error (fst s) a) as [t|] eqn:E2; [|discriminate]. rewrite nth_error_app1 by (apply nth_error_Some; congruence). rewrite E2. auto.
Qed.

(** Whatever a program does, no terminal it holds ever changes. *)
Theorem C219_never_changes : forall (before after : list (call T)) v o,
  observe T (run T before start) v = Some o -> observe T (run T (before ++ after) start) v = Some o.
Proof using.
  intros cs1 cs2 v o H. unfold run. rewrite fold_left_app. fold (run T cs1 start). fold (run T cs2 (run T cs1 start)).
  destruct (run_inv cs1 start inv_start) as (I1 & _). destruct (run_inv cs2 _ I1) as (_ & h' & vs' & E & F).
  rewrite (surjective_pairing (run T cs2 _)), E, F. now apply observe_stable.
Qed.
(** Every call that names an existing terminal (or none) returns a terminal, and its observations are exactly these. *)
Theorem C219_results : forall (cs : list (call T)) v c s b, let st := run T cs start in let n := length (snd st) in
  observe T st v = Some (c, s, b) ->
  (forall w h, observe T (run1 T st (CWithSize T v (Size w h))) n = Some (c, Size (Z.max 1 w) (Z.max 1 h), b)) /\
  observe T (run1 T st (CWithRawMode T v None)) n = Some (c, s, b) /\
  (forall x, observe T (run1 T st (CWithRawMode T v (Some x))) n = Some (c, s, false)).
Proof using.
  intros cs v c s b st n H. destruct (run_inv cs start inv_start) as ((V & G) & _). fold st in V, G. clearbody st. destruct st as [h vs]. cbn [fst snd] in *. subst n.
  unfold observe in H. cbn [fst snd] in H. destruct (nth_error vs v) as [a|] eqn:E; [|discriminate]. destruct (nth_error h a) as [t|] eqn:E2; [|discriminate].
  assert (K : c = tcaps T t /\ s = tsize T t /\ b = match traw T t with Some r => enabled T r | None => false end) by (split; [congruence|split; congruence]).
  destruct K as (-> & -> & Hb).
  assert (L : forall (l : list addr) x, nth_error (l ++ [x]) (length l) = Some x) by (intros; rewrite nth_error_app2, Nat.sub_diag by lia; reflexivity).
  assert (L2 : forall (l : heap T) x, nth_error (l ++ [x]) (length l) = Some x) by (intros; rewrite nth_error_app2, Nat.sub_diag by lia; reflexivity).
  split; [|split].
  - intros w hh. unfold run1. rewrite E. unfold withSize. rewrite E2. unfold alloc. rewrite write_last. unfold observe. cbn [fst snd]. rewrite L, L2. cbn [tcaps traw tsize new_size width height]. subst b.
    do 3 f_equal. unfold new_size. f_equal; [destruct (w <? 1) eqn:?|destruct (hh <? 1) eqn:?]; lia.
  - unfold run1. rewrite E. unfold withRawMode. rewrite E2. cbn [new_rawmode]. unfold observe. cbn [fst snd]. rewrite L, E2. now rewrite Hb.
  - intros x. unfold run1. rewrite E. unfold withRawMode. rewrite E2. cbn [new_rawmode]. unfold alloc. rewrite write_last. unfold observe. cbn [fst snd]. rewrite L, L2. reflexivity.
Qed.
Theorem C219_constructors : forall (cs : list (call T)), let st := run T cs start in let n := length (snd st) in
  observe T (run1 T st (CNew T)) n = Some (nothing, Size 80 24, false) /\
  observe T (run1 T st (CWithCaps T None)) n = Some (nothing, Size 80 24, false) /\
  (forall a d m al cu, observe T (run1 T st (CWithCaps T (Some (a, d, m, al, cu)))) n =
     Some (Caps a (if in_dec Z.eq_dec d [0; 8; 256; 16777216] then d else 0) (a && m) (a && al) (a && cu), Size 80 24, false)) /\
  (forall g e, observe T (run1 T st (CAuto T g e)) n = Some (auto_detect g e, Size 80 24, false)).
Proof using.
  intros cs st n. destruct st as [h vs]. cbn [snd] in n. subst n.
  assert (L : forall (l : list addr) x, nth_error (l ++ [x]) (length l) = Some x) by (intros; rewrite nth_error_app2, Nat.sub_diag by lia; reflexivity).
  assert (L2 : forall (l : heap T) x, nth_error (l ++ [x]) (length l) = Some x) by (intros; rewrite nth_error_app2, Nat.sub_diag by lia; reflexivity).
  unfold observe. cbn [run1 fst snd newTerminal newTerminalWithCapabilities autoDetect alloc option_map]. unfold newTerminal, newTerminalWithCapabilities, autoDetect, alloc. cbn [fst snd].
  rewrite !L, !L2. split; [reflexivity|]. split; [reflexivity|]. split; [|intros; rewrite !L2; reflexivity].
  intros a d m al cu. rewrite !L2. cbn [new_dterm tcaps tsize traw]. do 3 f_equal. unfold mk_caps, new_caps.
  assert (D : (if (d =? DNone) || (d =? D8) || (d =? D256) || (d =? DTrue) then d else DNone) = if in_dec Z.eq_dec d [0; 8; 256; 16777216] then d else 0).
  { unfold DNone, D8, D256, DTrue. destruct (in_dec _ _ _) as [I|N].
    - replace ((d =? 0) || (d =? 8) || (d =? 256) || (d =? 16777216)) with true by (cbn in I; lia). reflexivity.
    - replace ((d =? 0) || (d =? 8) || (d =? 256) || (d =? 16777216)) with false by (cbn in N; lia). reflexivity. }
  destruct a; cbn [negb andb]; now rewrite D.
Qed.
(** Every terminal a program holds is at least 1x1 and its capabilities are consistent. *)
Theorem C219_always_consistent : forall (cs : list (call T)) v c s b, observe T (run T cs start) v = Some (c, s, b) ->
  1 <= width s /\ 1 <= height s /\ consistent c.
Proof using.
  intros cs v c s b H. destruct (run_inv cs start inv_start) as ((V & G) & _). destruct (run T cs start) as [h vs]. cbn [fst snd] in *.
  unfold observe in H. cbn [fst snd] in H. destruct (nth_error vs v) as [a|] eqn:E; [|discriminate]. destruct (nth_error h a) as [t|] eqn:E2; [|discriminate].
  assert (K : c = tcaps T t /\ s = tsize T t) by (split; congruence). destruct K as (-> & ->).
  rewrite Forall_forall in G. destruct (G t (nth_error_In _ _ E2)) as (? & ? & ? & _). auto.
Qed.

(* ---------- C220: raw mode (violated) ---------- *)

(** A RawMode keeps the state it was given; a nil state is refused. *)
Theorem C220_state_kept_partial : new_rawmode T None = None /\ forall x, exists r, new_rawmode T (Some x) = Some r /\ original T r = x.
Proof using. split; [reflexivity|]. intros x. eexists. split; reflexivity. Qed.
(** But no program can ever see a terminal in raw mode: RawMode values start disabled and the
    API has no call that enables one. *)
Theorem C220_never_enabled_refuted : forall (cs : list (call T)) v c s b, observe T (run T cs start) v = Some (c, s, b) -> b = false.
Proof using.
  intros cs v c s b H. destruct (run_inv cs start inv_start) as ((V & G) & _). destruct (run T cs start) as [h vs]. cbn [fst snd] in *.
  unfold observe in H. cbn [fst snd] in H. destruct (nth_error vs v) as [a|] eqn:E; [|discriminate]. destruct (nth_error h a) as [t|] eqn:E2; [|discriminate].
  rewrite Forall_forall in G. destruct (G t (nth_error_In _ _ E2)) as (_ & _ & _ & R).
  assert (K : b = match traw T t with Some r => enabled T r | None => false end) by congruence. rewrite K. destruct (traw T t); auto.
Qed.
End Terminals.
Example C219_ex : let st := run unit [CNew unit; CWithSize unit 0 (Size 120 0); CWithRawMode unit 1 (Some tt); CWithSize unit 0 (Size (-3) 40)] (start unit) in
  map (observe unit st) [0; 1; 2; 3]%nat = [Some (nothing, Size 80 24, false); Some (nothing, Size 120 1, false); Some (nothing, Size 120 1, false); Some (nothing, Size 1 40, false)].
Proof. reflexivity. Qed.

(* ---------- C221 ---------- *)

(** What is detected is consistent, and colour is only reported together with ANSI. *)
Theorem C221_consistent : forall g e, consistent (auto_detect g e) /\ (supports_color (auto_detect g e) = true -> ansi (auto_detect g e) = true).
Proof.
  intros g e. split; [apply detect_consistent|]. unfold auto_detect, detect, force_color, detect_windows, detect_macos, detect_unix, none_caps.
  repeat (match goal with |- context [if ?b then _ else _] => destruct b | |- context [match platform_of g with _ => _ end] => destruct (platform_of g) end; try (intros; reflexivity); try (intros H; discriminate H)).
Qed.
(** NO_COLOR switches colour off, whatever else is set and on every system. *)
Theorem C221_no_color : forall g e, NO_COLOR e <> [] -> supports_color (auto_detect g e) = false.
Proof. intros g e H. unfold auto_detect, detect. destruct (NO_COLOR e); [congruence|]. reflexivity. Qed.
(** Otherwise FORCE_COLOR alone decides. *)
Theorem C221_force_color : forall g e, NO_COLOR e = [] -> FORCE_COLOR e <> [] ->
  (FORCE_COLOR e = word "0" -> auto_detect g e = nothing) /\
  (FORCE_COLOR e = word "1" -> auto_detect g e = full 8) /\
  (FORCE_COLOR e = word "2" -> auto_detect g e = full 256) /\
  (~ In (FORCE_COLOR e) [word "0"; word "1"; word "2"] -> auto_detect g e = full 16777216).
Proof.
  intros g e N F. unfold auto_detect, detect. rewrite N. cbn [isnil negb]. destruct (isnil (FORCE_COLOR e)) eqn:E; [apply isnil_iff in E; contradiction|]. cbn [negb].
  split; [|split; [|split]]; try (intros ->; reflexivity). intros NI. unfold force_color in *.
  rewrite !eqs_not by (intros X; apply NI; rewrite X; cbn; auto). destruct (eqs _ _ || eqs _ _); reflexivity.
Qed.
(** Neither set, on Linux, macOS and the like: an empty TERM or "dumb" supports nothing; any
    other has ANSI, mouse, alternate screen and cursor control, and its colours are: true colour
    iff COLORTERM is "truecolor" or "24bit" in any case or TERM_PROGRAM is one of four known
    terminals; else 256 iff it is Apple's terminal or TERM contains "256color"; else 8. *)
Definition claims_true (e : env) : Prop :=
  ignoring_case (COLORTERM e) (word "truecolor") \/ ignoring_case (COLORTERM e) (word "24bit") \/
  In (TERM_PROGRAM e) [word "iTerm.app"; word "vscode"; word "Hyper"; word "WarpTerminal"].
Theorem C221_unix : forall g e, g <> GoWindows -> NO_COLOR e = [] -> FORCE_COLOR e = [] -> ascii (COLORTERM e) ->
  (TERM e = [] \/ TERM e = word "dumb" -> auto_detect g e = nothing) /\
  (TERM e <> [] -> TERM e <> word "dumb" ->
     (claims_true e -> auto_detect g e = full 16777216) /\
     (~ claims_true e -> TERM_PROGRAM e = word "Apple_Terminal" \/ has_word (TERM e) (word "256color") -> auto_detect g e = full 256) /\
     (~ claims_true e -> TERM_PROGRAM e <> word "Apple_Terminal" -> ~ has_word (TERM e) (word "256color") -> auto_detect g e = full 8)).
Proof.
  intros g e G N F A.
  assert (U : auto_detect g e = detect_unix e).
  { unfold auto_detect, detect. rewrite N, F. cbn [isnil negb]. destruct g; [congruence|reflexivity|reflexivity]. }
  rewrite U. unfold detect_unix.
  assert (LT : forall s, (s = "truecolor"%string \/ s = "24bit"%string) -> (eqs (lower (COLORTERM e)) (codes s) = true <-> ignoring_case (COLORTERM e) (word s))).
  { intros s Hs. rewrite eqs_iff. apply lower_iff; [exact A|]. destruct Hs as [->| ->]; unfold lower_word; cbn; repeat constructor; lia. }
  split.
  - intros [E|E]; rewrite E; reflexivity.
  - intros T1 T2. rewrite (eqs_not _ _ T2). destruct (isnil (TERM e)) eqn:E; [apply isnil_iff in E; contradiction|]. cbn [orb].
    unfold detect_depth. cbv zeta.
    destruct (eqs (lower (COLORTERM e)) (codes "truecolor"%string) || eqs (lower (COLORTERM e)) (codes "24bit"%string)) eqn:E1.
    { apply orb_prop in E1. split; [reflexivity|]. assert (C : claims_true e) by (unfold claims_true; destruct E1 as [E1|E1]; apply LT in E1; auto). split; intros X; contradiction. }
    apply orb_false_elim in E1. destruct E1 as [E1a E1b].
    match goal with |- context [if ?b then _ else _] => destruct b eqn:E2 end.
    { split; [reflexivity|]. assert (C : claims_true e).
      { right; right. rewrite !orb_true_iff in E2. cbn [In]. destruct E2 as [[[E2|E2]|E2]|E2]; apply eqs_iff in E2; rewrite E2; auto 6. }
      split; intros X; contradiction. }
    assert (NC : ~ claims_true e).
    { intros [C|[C|C]].
      - apply LT in C; auto. congruence.
      - apply LT in C; auto. congruence.
      - rewrite !orb_false_iff in E2. destruct E2 as [[[Ea Eb] Ec] Ed]. cbn [In] in C.
        destruct C as [C|[C|[C|[C|[]]]]]; symmetry in C; apply eqs_iff in C; congruence. }
    split; [intros C; contradiction|]. clear E2. destruct (eqs (TERM_PROGRAM e) (codes "Apple_Terminal"%string)) eqn:E3.
    { apply eqs_iff in E3. split; [reflexivity|]. intros _ X. contradiction. }
    assert (NA : TERM_PROGRAM e <> word "Apple_Terminal") by (intros X; apply eqs_iff in X; congruence).
    destruct (containsb (TERM e) (codes "256color"%string)) eqn:E4.
    { apply contains_iff in E4. split; [reflexivity|]. intros _ _ X. contradiction. }
    assert (NH : ~ has_word (TERM e) (word "256color")) by (intros X; apply contains_iff in X; congruence).
    split; [intros _ [X|X]; contradiction|]. intros _ _ _. rewrite (eqs_not _ _ T2). cbn [orb]. match goal with |- context [if ?b then _ else _] => destruct b end; [reflexivity|]. rewrite E. reflexivity.
Qed.
(** On Windows: Windows Terminal and VS Code have everything; other consoles 8 colours and no mouse. *)
Theorem C221_windows : forall e, NO_COLOR e = [] -> FORCE_COLOR e = [] ->
  (WT_SESSION e <> [] \/ TERM_PROGRAM e = word "vscode" -> auto_detect GoWindows e = full 16777216) /\
  (WT_SESSION e = [] -> TERM_PROGRAM e <> word "vscode" -> auto_detect GoWindows e = Caps true 8 false true true).
Proof.
  intros e N F. unfold auto_detect, detect. rewrite N, F. cbn [isnil negb platform_of]. unfold detect_windows. split.
  - intros [W|V]; [destruct (WT_SESSION e); [congruence|reflexivity]|]. rewrite V. destruct (isnil _); reflexivity.
  - intros -> V. cbn [isnil negb]. rewrite (eqs_not _ _ V). reflexivity.
Qed.
Example C221_ex : let e := Env [] [] (word "TrueColor") [] (word "xterm") [] in
  ascii (COLORTERM e) /\ claims_true e /\ auto_detect GoLinux e = full 16777216 /\
  auto_detect GoLinux (Env [] [] [] [] (word "rxvt-256color") []) = full 256 /\ auto_detect GoLinux (Env [] [] [] [] (word "vt100") []) = full 8.
Proof.
  cbv zeta. split; [cbn; repeat constructor; lia|]. split; [|auto]. left. unfold ignoring_case. cbn. repeat constructor; unfold same_letter; lia.
Qed.

(* ---------- C222: NO_COLOR removes colour only (violated) ---------- *)

Theorem C222_colour_partial : forall g e, NO_COLOR e <> [] -> supports_color (auto_detect g e) = false /\ supports_true (auto_detect g e) = false.
Proof. intros g e H. unfold auto_detect, detect. destruct (NO_COLOR e); [congruence|]. split; reflexivity. Qed.
(** It also takes away ANSI, the mouse, the alternate screen and cursor control, on every system
    and whatever else is set. *)
Theorem C222_everything_lost_refuted : forall g e, NO_COLOR e <> [] -> auto_detect g e = nothing.
Proof. intros g e H. unfold auto_detect, detect. destruct (NO_COLOR e); [congruence|]. reflexivity. Qed.

(* ---------- C223: Terminal.app is never taken for a true colour terminal (violated) ---------- *)

Theorem C223_without_colorterm_partial : forall e, NO_COLOR e = [] -> FORCE_COLOR e = [] -> TERM_PROGRAM e = word "Apple_Terminal" ->
  ascii (COLORTERM e) -> ~ ignoring_case (COLORTERM e) (word "truecolor") -> ~ ignoring_case (COLORTERM e) (word "24bit") -> TERM e <> [] -> TERM e <> word "dumb" ->
  auto_detect GoDarwin e = full 256.
Proof.
  intros e N F P A C1 C2 T1 T2. destruct (C221_unix GoDarwin e ltac:(discriminate) N F A) as [_ H]. destruct (H T1 T2) as (_ & K & _). apply K; auto.
  intros [C|[C|C]]; auto. rewrite P in C. cbn in C. destruct C as [C|[C|[C|[C|[]]]]]; discriminate C.
Qed.
(** The rule for macOS is never used: a macOS build tells the detector "unix". *)
Theorem C223_true_colour_refuted : forall e, NO_COLOR e = [] -> FORCE_COLOR e = [] -> TERM_PROGRAM e = word "Apple_Terminal" -> COLORTERM e = word "truecolor" ->
  TERM e = word "xterm-256color" -> supports_true (auto_detect GoDarwin e) = true /\ supports_true (detect Darwin e) = false.
Proof.
  intros e N F P C T. unfold auto_detect, detect. rewrite N, F. cbn [isnil negb platform_of]. unfold detect_unix, detect_macos, detect_depth. rewrite P, C, T. split; reflexivity.
Qed.

(* ---------- C224: the two packages agree on the colours (violated) ---------- *)

Theorem C224_agree_partial : forall g e, g <> GoWindows -> NO_COLOR e = [] -> FORCE_COLOR e = [] -> TERM e <> [] -> TERM e <> word "dumb" ->
  (COLORTERM e = word "truecolor" \/ COLORTERM e = word "24bit" \/
   (COLORTERM e = [] /\ TERM_PROGRAM e = [] /\ In (TERM e) [word "xterm-256color"; word "screen-256color"; word "tmux-256color"])) ->
  depth (auto_detect g e) = TmModel.ColorDepth (COLORTERM e) (TERM e).
Proof.
  intros g e G N F T1 T2 H.
  assert (U : auto_detect g e = detect_unix e).
  { unfold auto_detect, detect. rewrite N, F. cbn [isnil negb]. destruct g; [congruence|reflexivity|reflexivity]. }
  rewrite U. unfold detect_unix. rewrite (eqs_not _ _ T2). destruct (isnil (TERM e)) eqn:E; [apply isnil_iff in E; contradiction|]. cbn [orb]. unfold detect_depth.
  destruct H as [H|[H|(H & P & K)]].
  - rewrite H. reflexivity.
  - rewrite H. reflexivity.
  - rewrite H, P. cbn [In] in K. destruct K as [K|[K|[K|[]]]]; rewrite <- K; reflexivity.
Qed.
(** With NO_COLOR set, core reports no colours and the terminal package at least 16; a plain
    xterm has 8 for one and 16 for the other. *)
Theorem C224_disagree_refuted : (forall g e, NO_COLOR e <> [] -> depth (auto_detect g e) = 0 /\ 16 <= TmModel.ColorDepth (COLORTERM e) (TERM e)) /\
  let e := Env [] [] [] [] (word "xterm") [] in depth (auto_detect GoLinux e) = 8 /\ TmModel.ColorDepth (COLORTERM e) (TERM e) = 16.
Proof.
  split; [|split; reflexivity]. intros g e H. split; [unfold auto_detect, detect; destruct (NO_COLOR e); [congruence|reflexivity]|].
  unfold TmModel.ColorDepth. destruct (_ || _); [lia|]. destruct (_ || _ || _); lia.
Qed.

(* ---------- C225: phoenix.NewTerminal is AutoDetectTerminal (violated) ---------- *)

Theorem C225_dumb_terminals_partial : forall T g e (h : heap T), auto_detect g e = nothing -> phoenix_NewTerminal T h = phoenix_AutoDetectTerminal T g e h.
Proof. intros T g e h H. unfold phoenix_NewTerminal, phoenix_AutoDetectTerminal, newTerminal, autoDetect. rewrite H. reflexivity. Qed.
(** NewTerminal detects nothing: on any terminal with capabilities the two differ. *)
Theorem C225_differ_refuted : forall T g e (h : heap T), auto_detect g e <> nothing ->
  capabilities T (fst (phoenix_NewTerminal T h)) (snd (phoenix_NewTerminal T h)) = Some nothing /\
  capabilities T (fst (phoenix_AutoDetectTerminal T g e h)) (snd (phoenix_AutoDetectTerminal T g e h)) <> Some nothing.
Proof.
  intros T g e h H. unfold phoenix_NewTerminal, phoenix_AutoDetectTerminal, newTerminal, autoDetect, capabilities, alloc. cbn [fst snd].
  rewrite !nth_error_app2, !Nat.sub_diag by lia. cbn. split; [reflexivity|congruence].
Qed.
Example C225_met : auto_detect GoLinux (Env [] [] [] [] (word "xterm") []) <> nothing /\ auto_detect GoLinux (Env [] [] [] [] (word "dumb") []) = nothing.
Proof. split; [discriminate|reflexivity]. Qed.

(* ---------- C226 ---------- *)

(** Sizes are at least 1x1, positions never negative, cell widths never negative; valid values
    are kept as they are; adding to a position moves it and stops at the edges. *)
Theorem C226_sizes : forall w h, 1 <= width (new_size w h) /\ 1 <= height (new_size w h) /\
  (1 <= w -> width (new_size w h) = w) /\ (w <= 1 -> width (new_size w h) = 1) /\ (1 <= h -> height (new_size w h) = h) /\ (h <= 1 -> height (new_size w h) = 1).
Proof. intros w h. unfold new_size. cbn [width height]. destruct (w <? 1) eqn:A, (h <? 1) eqn:B; lia. Qed.
Lemma new_position_max a b : new_position a b = Pos (Z.max 0 a) (Z.max 0 b).
Proof. unfold new_position; destruct (a <? 0) eqn:X, (b <? 0) eqn:Y; f_equal; lia. Qed.
Theorem C226_positions : forall r c dr dc, let p := new_position r c in
  0 <= prow p /\ 0 <= pcol p /\ (0 <= r -> prow p = r) /\ (r <= 0 -> prow p = 0) /\ (0 <= c -> pcol p = c) /\ (c <= 0 -> pcol p = 0) /\
  add p dr dc = Pos (Z.max 0 (prow p + dr)) (Z.max 0 (pcol p + dc)).
Proof.
  intros r c dr dc p. unfold p. rewrite ?new_position_max. unfold add. rewrite ?new_position_max. cbn [prow pcol]. rewrite ?new_position_max. cbn [prow pcol]. do 6 (split; [lia|]). f_equal; lia.
Qed.
(** Away from the edges steps add up and can be undone. *)
Theorem C226_add_composes : forall r c a b x y, 0 <= r -> 0 <= c -> 0 <= r + a -> 0 <= c + b ->
  add (add (new_position r c) a b) x y = add (new_position r c) (a + x) (b + y) /\
  add (add (new_position r c) a b) (- a) (- b) = new_position r c.
Proof.
  intros r c a b x y Hr Hc Ha Hb. unfold add. rewrite ?new_position_max. cbn [prow pcol]. rewrite ?new_position_max. cbn [prow pcol]. rewrite ?new_position_max. cbn [prow pcol].
  split; f_equal; lia.
Qed.
(** Cells keep their content; an automatic cell has the width of the string. *)
Theorem C226_cells : forall (sw : list Z -> Z) s w, content (new_cell s w) = s /\ 0 <= cwidth (new_cell s w) /\ (0 <= w -> cwidth (new_cell s w) = w) /\
  content (new_cell_auto sw s) = s /\ (s <> [] -> 0 <= sw s -> cwidth (new_cell_auto sw s) = sw s) /\ cwidth (new_cell_auto sw []) = 0.
Proof.
  intros sw s w. unfold new_cell_auto, new_cell, string_width. cbn [content cwidth]. split; [reflexivity|]. split; [destruct (w <? 0) eqn:?; lia|]. split; [intros; destruct (w <? 0) eqn:?; lia|].
  split; [reflexivity|]. split; [|reflexivity]. intros N P. destruct s as [|c r]; [congruence|]. destruct (sw (c :: r) <? 0) eqn:?; lia.
Qed.
(** The four depths have four names, none of them the name of an invalid depth. *)
Theorem C226_depth_names : forall a b, In a [0; 8; 256; 16777216] -> (In b [0; 8; 256; 16777216] -> depth_name a = depth_name b -> a = b) /\
  (~ In b [0; 8; 256; 16777216] -> depth_name a <> depth_name b) /\
  [depth_name 0; depth_name 8; depth_name 256; depth_name 16777216] = [codes "None"%string; codes "8 colors"%string; codes "256 colors"%string; codes "TrueColor (16.7M colors)"%string].
Proof.
  assert (V : forall z, In z [0; 8; 256; 16777216] -> z = 0 \/ z = 8 \/ z = 256 \/ z = 16777216) by (intros z; cbn; tauto || (intuition lia)).
  intros a b A. apply V in A. split; [|split; [|reflexivity]].
  - intros B E. apply V in B. destruct A as [-> |[-> |[-> | -> ]]]; destruct B as [-> |[-> |[-> | -> ]]]; first [reflexivity|discriminate E].
  - intros B. assert (U : depth_name b = codes "Unknown"%string).
    { unfold depth_name, DNone, D8, D256, DTrue. rewrite !(proj2 (Z.eqb_neq b _)) by (intros ->; apply B; cbn; auto). reflexivity. }
    rewrite U. destruct A as [-> |[-> |[-> | -> ]]]; discriminate.
Qed.
Example C226_ex : add (new_position 5 (-2)) (-9) 4 = Pos 0 4.
Proof. reflexivity. Qed.

(* ---------- C227: colour needs ANSI (violated) ---------- *)

Theorem C227_detected_partial : forall g e, ansi (auto_detect g e) = false -> supports_color (auto_detect g e) = false.
Proof. intros g e H. destruct (C221_consistent g e) as [_ K]. destruct (supports_color (auto_detect g e)); auto. rewrite K in H by auto. discriminate. Qed.
(** Capabilities built without ANSI keep the colour depth they were given. *)
Theorem C227_constructed_refuted : forall d m al c, In d [8; 256; 16777216] -> let k := new_caps false d m al c in ansi k = false /\ supports_color k = true.
Proof. intros d m al c [<-|[<-|[<-|[]]]]; split; reflexivity. Qed.

Print Assumptions C219_never_changes. Print Assumptions C219_results. Print Assumptions C219_constructors. Print Assumptions C219_always_consistent.
Print Assumptions C220_state_kept_partial. Print Assumptions C220_never_enabled_refuted. Print Assumptions C221_consistent. Print Assumptions C221_no_color.
Print Assumptions C221_force_color. Print Assumptions C221_unix. Print Assumptions C221_windows. Print Assumptions C222_colour_partial.
Print Assumptions C222_everything_lost_refuted. Print Assumptions C223_without_colorterm_partial. Print Assumptions C223_true_colour_refuted. Print Assumptions C224_agree_partial.
Print Assumptions C224_disagree_refuted. Print Assumptions C225_dumb_terminals_partial. Print Assumptions C225_differ_refuted. Print Assumptions C226_sizes.
Print Assumptions C226_positions. Print Assumptions C226_add_composes. Print Assumptions C226_cells. Print Assumptions C226_depth_names.
Print Assumptions C227_detected_partial. Print Assumptions C227_constructed_refuted.
