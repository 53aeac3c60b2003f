(** C335 - C337: what SECURITY.md promises: typed text, untrusted text in a style, positions in mouse reports. *)
From Verif Require Import Prelude Utf8 TermEmu KeysModel KeysSpec KeysProofs.
From Verif Require SyModel SySpec SyTextProps SyRenderProps MsModel.

(** ** C335: typed characters *)
Lemma decode_high b r : 128 <= b -> 128 <= fst (decode_rune (b :: r)) /\ scalar (fst (decode_rune (b :: r))).
Proof.
  intros Hb. unfold decode_rune, rune_error, scalar. replace (b <? 128) with false by lia.
  destruct (seqlen b =? 1) eqn:S1; [cbn [fst]; lia|]. destruct r as [|c r]; [cbn [fst]; lia|].
  destruct (ok2 b c) eqn:O; [|cbn [negb fst]; lia]. cbn [negb].
  unfold ok2, lo2, hi2 in O.
  assert (B : 194 <= b <= 244) by (unfold seqlen in S1; destruct ((194 <=? b) && (b <=? 223)) eqn:?, ((224 <=? b) && (b <=? 239)) eqn:?, ((240 <=? b) && (b <=? 244)) eqn:?; lia).
  destruct (seqlen b =? 2) eqn:S2.
  { assert (b <= 223) by (unfold seqlen in S2; destruct ((194 <=? b) && (b <=? 223)) eqn:?, ((224 <=? b) && (b <=? 239)) eqn:?, ((240 <=? b) && (b <=? 244)) eqn:?; lia).
    replace (b =? 224) with false in O by lia. replace (b =? 240) with false in O by lia. replace (b =? 237) with false in O by lia. replace (b =? 244) with false in O by lia. cbn [fst]. lia. }
  assert (B2 : 224 <= b) by (unfold seqlen in S2; destruct ((194 <=? b) && (b <=? 223)) eqn:?, ((224 <=? b) && (b <=? 239)) eqn:?, ((240 <=? b) && (b <=? 244)) eqn:?; lia).
  destruct r as [|d r]; [cbn [fst]; lia|]. destruct (cont d) eqn:Cd; [|cbn [negb fst]; lia]. cbn [negb]. unfold cont in Cd.
  destruct (seqlen b =? 3) eqn:S3.
  { assert (b <= 239) by (unfold seqlen in S3; destruct ((194 <=? b) && (b <=? 223)) eqn:?, ((224 <=? b) && (b <=? 239)) eqn:?, ((240 <=? b) && (b <=? 244)) eqn:?; lia).
    cbn [fst]. destruct (Z.eqb_spec b 224), (Z.eqb_spec b 240), (Z.eqb_spec b 237), (Z.eqb_spec b 244); lia. }
  assert (B3 : 240 <= b) by (unfold seqlen in S3; destruct ((194 <=? b) && (b <=? 223)) eqn:?, ((224 <=? b) && (b <=? 239)) eqn:?, ((240 <=? b) && (b <=? 244)) eqn:?; lia).
  destruct r as [|e r]; [cbn [fst]; lia|]. destruct (cont e) eqn:Ce; [|cbn [negb fst]; lia]. cbn [negb]. unfold cont in Ce. cbn [fst].
  destruct (Z.eqb_spec b 224), (Z.eqb_spec b 240), (Z.eqb_spec b 237), (Z.eqb_spec b 244); lia.
Qed.
Definition harmless (k : keymsg) : Prop := ktype k = KRune -> kctrl k = false -> 32 < krune k /\ krune k <> 127 /\ scalar (krune k).
Lemma parsed_harmless d k : parse_key d = Some k -> harmless k.
Proof.
  intros E. apply parse_key_spec in E as [(b & -> & B)|[E|E]].
  - destruct B; intros T N; cbn in *; try discriminate. unfold scalar. lia.
  - cbn in E. repeat (destruct E as [E|E]; [injection E as <- <-; intros T; discriminate|]). destruct E.
  - cbn in E. repeat (destruct E as [E|E]; [injection E as <- <-; intros T; discriminate|]). destruct E.
Qed.
Lemma fill_rune_cons cs : forall b r, exists t, buf (fill_rune (b :: r) cs) = b :: t.
Proof. induction cs as [|c cs IH]; intros b r; cbn [fill_rune]; [now exists r|]. destruct ((length (b :: r) <? 4)%nat && negb (full_rune (b :: r))); [apply (IH b (r ++ c))|now exists r]. Qed.
Lemma read_harmless s k s' : read s = Some (Some k, s') -> harmless k.
Proof.
  unfold read. destruct (read_byte s) as [[b s1]|]; [|discriminate]. assert (Sp : b = 32 -> (if b =? 27 then let '(t, rest) := take_esc 10 (buf s1) in (b :: t, RS rest (chunks s1)) else ([b], s1)) = ([32], s1)) by (intros ->; reflexivity).
  destruct (if b =? 27 then _ else _) as [sq s2]. destruct (parse_key sq) as [k1|] eqn:P; [intros E; injection E as <- _; exact (parsed_harmless _ _ P)|].
  assert (Nsp : b <> 32) by (intros X; specialize (Sp X); injection Sp as -> _; discriminate).
  destruct (128 <=? b) eqn:Hb.
  - unfold read_rune. destruct (fill_rune_cons (chunks s2) b (buf s2)) as [t Et]. change (KeysModel.buf (RS (b :: buf s2) (chunks s2))) with (b :: buf s2). change (chunks (RS (b :: buf s2) (chunks s2))) with (chunks s2). rewrite Et.
    destruct (decode_high b t ltac:(lia)) as [D1 D2]. destruct (decode_rune (b :: t)) as [c n]. cbn [fst] in *. intros E. injection E as <- _. intros _ _. cbn. split; [lia|split; [lia|exact D2]].
  - destruct ((32 <=? b) && (b <=? 126)) eqn:Hp; [|discriminate]. intros E. injection E as <- _. intros _ _. cbn.
    destruct (Z.eqb_spec b 32) as [Eb|N]; [|unfold scalar; lia]. exfalso. apply Nsp. exact Eb.
Qed.
Lemma all_harmless f : forall s k, In k (read_all f s) -> harmless k.
Proof.
  induction f as [|f IH]; intros s k I; [destruct I|]. cbn [read_all] in I. destruct (read s) as [[[k0|] s']|] eqn:E; [|eauto|destruct I].
  destruct I as [<-|I]; [|eauto]. exact (read_harmless _ _ _ E).
Qed.
(** Whatever bytes the terminal sends, however they are split: a character key (without Ctrl) carries a character, neither a control code
    nor Space (which has its own key) nor Delete, and a valid one. *)
Theorem C335_characters_only : forall reads k, In k (delivered reads) -> ktype k = KRune -> kctrl k = false ->
  32 < krune k /\ krune k <> 127 /\ scalar (krune k).
Proof. intros reads k I. exact (all_harmless _ _ _ I). Qed.
Example C335_ex : delivered [[27; 93; 53; 50; 59; 99; 7]; [192; 155]; [97]] <> [] /\
  In (Key KRune 97 false false false) (delivered [[27; 93; 53; 50; 59; 99; 7]; [192; 155]; [97]]).
Proof. vm_compute. split; [discriminate|tauto]. Qed.

(** ** C336: untrusted text *)
(** The text is passed on as it is ... *)
Theorem C336_passed_verbatim : forall sw f c, let s := SyModel.styled [SyModel.Foreground f] in
  exists pre, SyModel.render sw s c = pre ++ c ++ SyModel.reset \/ SyModel.render sw s c = c.
Proof.
  intros sw f c s. unfold SyModel.render, SyModel.execute.
  destruct (negb (SyModel.valid s)); [exists []; now right|]. destruct (SyModel.size_violated sw s c); [exists []; now right|].
  change (SyModel.laid_out sw s c) with c. unfold SyModel.apply_deco. cbn -[SyModel.apply_colors]. unfold SyModel.apply_colors.
  match goal with |- context [match ?l with [] => c | _ :: _ => _ end] => destruct l as [|x l'] end; [exists []; now right|]. exists (x :: l'). left. reflexivity.
Qed.
(** ... so the terminal obeys it: red "text" that is the sequence for clearing the screen clears it, whatever it showed. *)
Theorem C336_rendering_is_safe_refuted : forall cw sw t x y, pst t = Ground ->
  tch (grid (feeds cw t (SyModel.render sw (SyModel.styled [SyModel.Foreground (SyModel.Rgb 255 0 0)]) [27; 91; 50; 74])) x y) = 32.
Proof. intros cw sw [W H b g x0 y0 p pn ps v a sv] x y E. cbn in E. subst ps. destruct b; vm_compute; reflexivity. Qed.

(** Text without ESC is safe: the terminal shows the laid-out text in the style and is back at its defaults. *)
Theorem C336_text_without_escape_partial : forall sw s c, SyModel.valid s = true -> SyModel.size_violated sw s c = false -> SySpec.colors_ok s -> SyModel.bcolor s = None ->
  (forall b, SyModel.bord s = Some b -> ~ SySpec.border_has b 27) -> Forall scalar c -> ~ In 27 c ->
  SySpec.shows (SyModel.render sw s c) (SySpec.paint (SySpec.style_pen s) (SyModel.laid_out sw s c)) pen0.
Proof. exact SyRenderProps.C109_shown. Qed.

(** ** C337: mouse positions *)
(** For every size of terminal there is a report, accepted, whose position lies outside it; also to the left of and above it. *)
Theorem C337_positions_validated_refuted :
  (forall W H now, 0 < W <= 1000000 -> 0 < H <= 1000000 -> exists s e, MsModel.parse_raw now s = Some e /\ W <= MsModel.px (MsModel.epos e) /\ H <= MsModel.py (MsModel.epos e)) /\
  (forall now, exists s e, MsModel.parse_raw now s = Some e /\ MsModel.px (MsModel.epos e) < 0 /\ MsModel.py (MsModel.epos e) < 0).
Proof.
  split.
  - intros W H now HW HH. exists ([27; 91; 60; 48; 59] ++ [50;48;48;48;48;48;48] ++ [59] ++ [50;48;48;48;48;48;48] ++ [77]). eexists. split; [reflexivity|]. cbn. lia.
  - intros now. exists [27; 91; 60; 48; 59; 48; 59; 48; 77]. eexists. split; [reflexivity|]. cbn. lia.
Qed.

Print Assumptions C335_characters_only. Print Assumptions C336_passed_verbatim. Print Assumptions C336_rendering_is_safe_refuted. Print Assumptions C336_text_without_escape_partial.
Print Assumptions C337_positions_validated_refuted.
