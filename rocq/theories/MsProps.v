From Verif Require Import Prelude MsModel MsSpec MsProofs.

(* ---------- C41: SGR reports ---------- *)
(** Any SGR press, release or wheel report a terminal can send is decoded to its kind, button, modifiers and zero-based position;
    ParseSequence hands on exactly what the event processor makes of it, and the decoded event itself always comes last. *)
Theorem C41_sgr_press_release_wheel : forall p now r, on_terminal r ->
  (rk r = RPress /\ (pressable (rb r) \/ wheel (rb r)) \/ rk r = RRelease /\ pressable (rb r)) ->
  exists e, tells e r /\ etime e = now /\
    (etyp e = EPress <-> rk r = RPress /\ pressable (rb r)) /\ (etyp e = ERelease <-> rk r = RRelease) /\ (etyp e = EScroll <-> wheel (rb r)) /\
    parse_sequence p now (sgr_report r) = (fst (process p e), Some (snd (process p e))) /\
    exists es, snd (process p e) = es ++ [e].
Proof.
  intros p now r [X Y] K.
  assert (M : rk r <> RMotion) by (destruct K as [[-> _]|[-> _]]; discriminate).
  assert (E : parse_raw now (sgr_report r) = Some (Event (if is_wheel (rb r) then EScroll else match rk r with RRelease => ERelease | _ => EPress end) (rb r) (Pos (rx r) (ry r)) (new_mods (rsh r) (rctrl r) (ralt r)) now)).
  { unfold sgr_report. rewrite sgr_body; [|unfold xbase, xmods, xmotion; destruct (rb r), (rsh r), (ralt r), (rctrl r), (rk r); lia|lia|lia|destruct (rk r); auto].
    unfold xmods. assert (xmotion r = 0) as -> by (unfold xmotion; destruct (rk r); congruence). rewrite decode_report0. cbn [fst snd].
    replace (rx r + 1 - 1) with (rx r) by lia. replace (ry r + 1 - 1) with (ry r) by lia. destruct (rk r); try congruence; reflexivity. }
  match type of E with _ = Some ?e => exists e end. split; [|split; [|split; [|split; [|split; [|split]]]]]; [| | | | |unfold parse_sequence; rewrite E; destruct (process p _) as [p' es]; cbn [fst snd]; reflexivity|].
  - destruct (mods_flags (rsh r) (rctrl r) (ralt r)) as (S1 & S2 & S3). repeat split; cbn [ebtn epos px py emods]; auto.
  - reflexivity.
  - cbn [etyp]. unfold pressable, wheel in *. destruct (rb r), (rk r); cbn [is_wheel]; split; intros H; try discriminate; try tauto; intuition discriminate.
  - cbn [etyp]. unfold pressable, wheel in *. destruct (rb r), (rk r); cbn [is_wheel]; split; intros H; try discriminate; try tauto; intuition discriminate.
  - cbn [etyp]. unfold pressable, wheel in *. destruct (rb r), (rk r); cbn [is_wheel]; split; intros H; try discriminate; try tauto; intuition discriminate.
  - unfold process. cbn [etyp]. destruct (is_wheel (rb r)); [exists []; reflexivity|]. destruct (rk r); try congruence; [exists []; reflexivity|].
    destruct (drag_release (pdrag p)) as [d was]. destruct was; [exists []; reflexivity|]. cbn [detect_click etyp]. match goal with |- context [let '(_, _) := ?x in _] => destruct x as [c o] end. cbn [snd]. eexists. reflexivity.
Qed.
(** The library's own SGR encoder is read back by the same decoder. *)
Theorem C41_sgr_roundtrip : forall now e press, 0 <= px (epos e) < 1000000000 -> 0 <= py (epos e) < 1000000000 -> ebtn e <> BNone ->
  exists e', parse_raw now (sgr_format e press) = Some e' /\ ebtn e' = ebtn e /\ epos e' = epos e /\
    has_shift (emods e') = has_shift (emods e) /\ has_ctrl (emods e') = has_ctrl (emods e) /\ has_alt (emods e') = has_alt (emods e) /\
    etyp e' = (if is_wheel (ebtn e) then EScroll else if press then EPress else ERelease).
Proof.
  intros now e press X Y N.
  assert (D : decode_button (encode_button (ebtn e) (emods e)) = (ebtn e, new_mods (has_shift (emods e)) (has_ctrl (emods e)) (has_alt (emods e))) /\ 0 <= encode_button (ebtn e) (emods e) < 1000).
  { unfold encode_button. destruct (ebtn e); try congruence; destruct (has_shift (emods e)), (has_ctrl (emods e)), (has_alt (emods e)); split; try reflexivity; cbn; lia. }
  destruct D as [D R]. destruct (mods_flags (has_shift (emods e)) (has_ctrl (emods e)) (has_alt (emods e))) as (S1 & S2 & S3).
  eexists. split; [unfold sgr_format; apply sgr_body; auto; try lia; destruct press; auto|]. rewrite D. cbn [fst snd ebtn epos emods etyp].
  repeat split; auto; [|destruct press; reflexivity]. destruct (epos e) as [a b]; cbn [px py]; f_equal; lia.
Qed.
Example C41_case : on_terminal (Rep RRelease BRight true false true 79 23) /\ sgr_report (Rep RRelease BRight true false true 79 23) = [27;91;60;50;50;59;56;48;59;50;52;109].
Proof. split; [unfold on_terminal; cbn; lia|reflexivity]. Qed.

(* ---------- C90: motion reports ---------- *)
Definition quiet (p : proc) : Prop := (dactive (pdrag p) = true -> dcur (pdrag p) = dstart (pdrag p)) /\ 0 < dthr (pdrag p).
Lemma quiet_nodrag p : quiet p -> is_drag (pdrag p) = false.
Proof. intros [Q T]. unfold is_drag. destruct (dactive (pdrag p)); auto. rewrite Q by auto. rewrite distance_eq. unfold cells_apart. cbn [negb]. lia. Qed.
Lemma quiet_step p e : quiet p -> etyp e = EPress \/ etyp e = ERelease \/ etyp e = EScroll ->
  quiet (fst (process p e)) /\ Forall (fun o => etyp o <> EDrag /\ etyp o <> EMotion) (snd (process p e)) /\ (etyp e = ERelease -> exists c, snd (process p e) = [c; e] /\ is_click (etyp c) = true).
Proof.
  intros Q K. pose proof (quiet_nodrag p Q) as ND. destruct Q as [Q T]. unfold process. destruct K as [K|[K|K]]; rewrite K.
  - unfold drag_press. rewrite K. cbn [fst snd]. split; [split; cbn; auto|]. split; [constructor; auto; rewrite K; split; discriminate|discriminate].
  - unfold drag_release. rewrite ND. destruct (dactive (pdrag p)) eqn:A; cbn [negb];
    (unfold detect_click; rewrite K; match goal with |- context [if ?n =? 1 then _ else _] => destruct (n =? 1); [|destruct (n =? 2); [|destruct (n =? 3)]] end; cbn [fst snd pdrag];
     (split; [split; cbn [pdrag dactive dcur dstart dthr]; auto; intros; congruence|]; split; [cbn [app]; apply Forall_cons; [cbn [etyp with_type]; split; discriminate|apply Forall_cons; [rewrite K; split; discriminate|apply Forall_nil]]|intros _; eexists; split; [reflexivity|reflexivity]])).
  - cbn [fst snd]. split; [split; auto|]. split; [constructor; auto; rewrite K; split; discriminate|discriminate].
Qed.
Lemma quiet_feed seqs : forall p, quiet p -> quiet (fst (feed p seqs)) /\ Forall (fun o => etyp o <> EDrag /\ etyp o <> EMotion) (snd (feed p seqs)).
Proof.
  induction seqs as [|[now s] t IH]; intros p Q; [split; [auto|constructor]|]. cbn [feed]. unfold parse_sequence. destruct (parse_raw now s) as [e|] eqn:E.
  - destruct (quiet_step p e Q (parse_types _ _ _ E)) as (Q1 & F1 & _). destruct (process p e) as [p1 o1]. cbn [fst snd] in *. destruct (IH p1 Q1) as [Q2 F2]. destruct (feed p1 t) as [p2 o2]. cbn [fst snd] in *.
    split; auto. apply Forall_app; auto.
  - destruct (IH p Q) as [Q2 F2]. destruct (feed p t) as [p2 o2]. cbn [fst snd] in *. split; auto.
Qed.
(** The claim "moving the pointer with the button held beyond the threshold is reported as a drag" fails for every program using
    ParseSequence: whatever bytes the terminal sends, no drag and no motion event ever comes out, the mouse never counts as dragging,
    and every release after a press is a click, however far the pointer moved. *)
Theorem C90_parse_sequence_never_drags_refuted : forall timeout tol thr lines seqs,
  let p := fst (feed (new_proc_with timeout tol thr lines) seqs) in
  Forall (fun o => etyp o <> EDrag /\ etyp o <> EMotion) (snd (feed (new_proc_with timeout tol thr lines) seqs)) /\
  is_drag (pdrag p) = false /\
  forall now s e, parse_raw now s = Some e -> etyp e = ERelease -> exists c, snd (parse_sequence p now s) = Some [c; e] /\ is_click (etyp c) = true.
Proof.
  intros timeout tol thr lines seqs p. assert (Q0 : quiet (new_proc_with timeout tol thr lines)).
  { split; cbn; [discriminate|]. destruct (thr <=? 0) eqn:?; lia. }
  destruct (quiet_feed seqs _ Q0) as [Q F]. split; auto. split; [apply quiet_nodrag; auto|]. intros now s e P R. destruct (quiet_step _ e Q (parse_types _ _ _ P)) as (_ & _ & C). destruct (C R) as (c & O & K). exists c. split; auto.
  unfold parse_sequence. rewrite P. fold p in O. destruct (process p e). cbn [snd] in *. congruence.
Qed.
(** A concrete gesture: press the left button at (0,0), move to (30,10) with it held, release there. *)
Example C90_case : map etyp (snd (feed new_proc [(0, sgr_report (Rep RPress BLeft false false false 0 0)); (1, sgr_report (Rep RMotion BLeft false false false 30 10)); (2, sgr_report (Rep RRelease BLeft false false false 30 10))])) = [EPress; EPress; EClick; ERelease].
Proof. reflexivity. Qed.
(** What does hold: a motion report is accepted and carries the right position and modifiers, though as a press of no button. *)
Theorem C90_motion_position_partial : forall now r, on_terminal r -> rk r = RMotion ->
  exists e, parse_raw now (sgr_report r) = Some e /\ etyp e = EPress /\ ebtn e = BNone /\ epos e = Pos (rx r) (ry r) /\
    has_shift (emods e) = rsh r /\ has_alt (emods e) = ralt r /\ has_ctrl (emods e) = rctrl r.
Proof.
  intros now r [X Y] K. eexists. split; [unfold sgr_report; apply sgr_body; [unfold xbase, xmods, xmotion; destruct (rb r), (rsh r), (ralt r), (rctrl r), (rk r); lia|lia|lia|rewrite K; auto]|].
  unfold xmods. assert (xmotion r = 32) as -> by (unfold xmotion; rewrite K; auto). rewrite decode_report1. cbn [fst snd]. destruct (mods_flags (rsh r) (rctrl r) (ralt r)) as (S1 & S2 & S3). rewrite K.
  replace (rx r + 1 - 1) with (rx r) by lia. replace (ry r + 1 - 1) with (ry r) by lia. repeat split; auto.
Qed.

(* ---------- C91: X10 reports ---------- *)
(** Presses and wheel turns up to column and row 222 are decoded right. *)
Theorem C263_x10_press : forall now r, 0 <= rx r <= 222 -> 0 <= ry r <= 222 -> rk r = RPress -> rb r <> BNone ->
  Forall (fun b => 0 <= b <= 255) (x10_report r) /\
  exists e, parse_raw now (x10_report r) = Some e /\ tells e r /\ etyp e = (if is_wheel (rb r) then EScroll else EPress).
Proof.
  intros now r X Y K N. split.
  - unfold x10_report, old_code, xmods, xmotion. rewrite K. repeat constructor; try lia; destruct (rb r), (rsh r), (ralt r), (rctrl r); cbn; lia.
  - unfold x10_report, parse_raw. cbn [trim_prefix has_prefix Z.eqb Pos.eqb x10_parse].
    replace (32 + old_code r - 32) with (xbase (rb r) + ((if rsh r then 4 else 0) + (if ralt r then 8 else 0) + (if rctrl r then 16 else 0)) + 0) by (unfold old_code, xmods, xmotion; rewrite K; lia).
    rewrite decode_report0. eexists. split; [reflexivity|]. destruct (mods_flags (rsh r) (rctrl r) (ralt r)) as (S1 & S2 & S3). split; auto. repeat split; cbn [ebtn epos px py emods]; auto; lia.
Qed.
(** Releases are not: every X10 release report is announced as a press. *)
Theorem C91_x10_release_is_press_refuted : forall now r, rk r = RRelease -> exists e, parse_raw now (x10_report r) = Some e /\ etyp e = EPress /\ ebtn e = BNone.
Proof.
  intros now r K. unfold x10_report, parse_raw. cbn [trim_prefix has_prefix Z.eqb Pos.eqb x10_parse].
  replace (32 + old_code r - 32) with (xbase BNone + ((if rsh r then 4 else 0) + (if ralt r then 8 else 0) + (if rctrl r then 16 else 0)) + 0) by (unfold old_code, xmods, xmotion; rewrite K; cbn [xbase]; lia).
  rewrite decode_report0. eexists. split; [reflexivity|]. auto.
Qed.
(* ---------- C92: urxvt reports ---------- *)
(** Every button press a urxvt terminal reports comes out as a press of no button, every wheel turn as a press of no button. *)
Theorem C92_urxvt_buttons_lost_refuted : forall now r, on_terminal r -> rk r = RPress -> exists e, parse_raw now (urxvt_report r) = Some e /\ etyp e = EPress /\ ebtn e = BNone.
Proof.
  intros now r [X Y] K. eexists. split; [unfold urxvt_report; apply urxvt_body; [unfold old_code, xbase, xmods, xmotion; destruct (rb r), (rsh r), (ralt r), (rctrl r), (rk r); lia|lia|lia]|].
  replace (32 + old_code r) with (xbase (rb r) + ((if rsh r then 4 else 0) + (if ralt r then 8 else 0) + (if rctrl r then 16 else 0)) + 32) by (unfold old_code, xmods, xmotion; rewrite K; lia).
  rewrite decode_report1. auto.
Qed.
(** Position and modifiers are right, and the library's own urxvt encoding (which lacks the offset) is read back. *)
Theorem C264_urxvt_position : forall now r, on_terminal r -> exists e, parse_raw now (urxvt_report r) = Some e /\ epos e = Pos (rx r) (ry r) /\
  (rk r = RPress -> has_shift (emods e) = rsh r /\ has_alt (emods e) = ralt r /\ has_ctrl (emods e) = rctrl r).
Proof.
  intros now r [X Y]. eexists. split; [unfold urxvt_report; apply urxvt_body; [unfold old_code, xbase, xmods, xmotion; destruct (rb r), (rsh r), (ralt r), (rctrl r), (rk r); lia|lia|lia]|].
  cbn [epos emods]. split; [f_equal; lia|]. intros K.
  replace (32 + old_code r) with (xbase (rb r) + ((if rsh r then 4 else 0) + (if ralt r then 8 else 0) + (if rctrl r then 16 else 0)) + 32) by (unfold old_code, xmods, xmotion; rewrite K; lia).
  rewrite decode_report1. cbn [snd]. destruct (mods_flags (rsh r) (rctrl r) (ralt r)) as (S1 & S2 & S3). auto.
Qed.
Theorem C264_urxvt_own_encoding : forall now e, 0 <= px (epos e) < 1000000000 -> 0 <= py (epos e) < 1000000000 -> ebtn e <> BNone ->
  exists e', parse_raw now (urxvt_format e) = Some e' /\ ebtn e' = ebtn e /\ epos e' = epos e /\ etyp e' = (if is_wheel (ebtn e) then EScroll else EPress).
Proof.
  intros now e X Y N.
  assert (D : fst (decode_button (encode_button (ebtn e) (emods e))) = ebtn e /\ 0 <= encode_button (ebtn e) (emods e) < 1000).
  { unfold encode_button. destruct (ebtn e); try congruence; destruct (has_shift (emods e)), (has_ctrl (emods e)), (has_alt (emods e)); split; try reflexivity; cbn; lia. }
  destruct D as [D R]. eexists. split; [unfold urxvt_format; apply urxvt_body; auto; lia|]. rewrite D. cbn [ebtn epos etyp]. repeat split; auto. destruct (epos e) as [a b]; cbn [px py]; f_equal; lia.
Qed.
Example C92_case : on_terminal (Rep RPress BLeft false false false 4 2) /\ urxvt_report (Rep RPress BLeft false false false 4 2) = [27;91;51;50;59;53;59;51;77].
Proof. split; [unfold on_terminal; cbn; lia|reflexivity]. Qed.
(* ---------- C93: the X10 encoder ---------- *)
(** The library's X10 encoding of a position is a terminal's while it fits a byte ... *)
Theorem C265_x10_encoder : forall now e, 0 <= px (epos e) <= 222 -> 0 <= py (epos e) <= 222 -> ebtn e <> BNone ->
  exists e', parse_raw now (x10_format e) = Some e' /\ ebtn e' = ebtn e /\ epos e' = epos e /\ etyp e' = (if is_wheel (ebtn e) then EScroll else EPress).
Proof.
  intros now e X Y N. unfold x10_format, parse_raw. cbn [trim_prefix has_prefix Z.eqb Pos.eqb x10_parse].
  assert (D : fst (decode_button (encode_button (ebtn e) (emods e))) = ebtn e /\ 0 <= encode_button (ebtn e) (emods e) < 128).
  { unfold encode_button. destruct (ebtn e); try congruence; destruct (has_shift (emods e)), (has_ctrl (emods e)), (has_alt (emods e)); split; try reflexivity; cbn; lia. }
  destruct D as [D R]. rewrite !Z.mod_small by lia. replace (encode_button (ebtn e) (emods e) + 32 - 32) with (encode_button (ebtn e) (emods e)) by lia.
  destruct (decode_button (encode_button (ebtn e) (emods e))) as [b m]. cbn [fst] in D. subst b. eexists. split; [reflexivity|]. cbn [ebtn epos etyp]. repeat split; auto. destruct (epos e) as [a c]; cbn [px py]; f_equal; lia.
Qed.
(** ... and wraps round beyond: every column or row from 223 to 478 is read back 256 too low, such as column 223 as column -33. *)
Theorem C93_x10_encoder_wraps_refuted : forall now e, 0 <= px (epos e) <= 478 -> 0 <= py (epos e) <= 478 -> ebtn e <> BNone ->
  exists e', parse_raw now (x10_format e) = Some e' /\ ebtn e' = ebtn e /\
    px (epos e') = (if px (epos e) <? 223 then px (epos e) else px (epos e) - 256) /\
    py (epos e') = (if py (epos e) <? 223 then py (epos e) else py (epos e) - 256).
Proof.
  intros now e X Y N. unfold x10_format, parse_raw. cbn [trim_prefix has_prefix Z.eqb Pos.eqb x10_parse].
  assert (D : fst (decode_button (encode_button (ebtn e) (emods e))) = ebtn e /\ 0 <= encode_button (ebtn e) (emods e) < 128).
  { unfold encode_button. destruct (ebtn e); try congruence; destruct (has_shift (emods e)), (has_ctrl (emods e)), (has_alt (emods e)); split; try reflexivity; cbn; lia. }
  assert (M : forall x, 0 <= x <= 478 -> (x + 33) mod 256 - 33 = if x <? 223 then x else x - 256).
  { intros x Hx. destruct (Z.ltb_spec x 223); [rewrite Z.mod_small; lia|]. replace (x + 33) with (x - 223 + 1 * 256) by lia. rewrite Z_mod_plus_full, Z.mod_small; lia. }
  destruct D as [D R]. rewrite (Z.mod_small (encode_button _ _ + 32)) by lia. replace (encode_button (ebtn e) (emods e) + 32 - 32) with (encode_button (ebtn e) (emods e)) by lia.
  destruct (decode_button (encode_button (ebtn e) (emods e))) as [b m]. cbn [fst] in D. subst b. eexists. split; [reflexivity|]. cbn [ebtn epos px py]. auto.
Qed.
Example C93_ex : exists e', parse_raw 0 (x10_format (Event EPress BLeft (Pos 223 4) 0 0)) = Some e' /\ epos e' = Pos (-33) 4.
Proof. eexists. split; reflexivity. Qed.

(* ---------- runs ---------- *)
Lemma run_app es1 : forall p es2, run p (es1 ++ es2) = (fst (run (fst (run p es1)) es2), snd (run p es1) ++ snd (run (fst (run p es1)) es2)).
Proof.
  induction es1 as [|e t IH]; intros p es2; [cbn [run app fst snd]; apply surjective_pairing|]. cbn [app run]. destruct (process p e) as [p1 o1]. rewrite IH. destruct (run p1 t) as [p2 o2]. cbn [fst snd]. rewrite app_assoc. reflexivity.
Qed.
Lemma mids_run mids : forall p, no_button_change mids -> pclick (fst (run p mids)) = pclick p /\
  pdrag (fst (run p mids)) = if dactive (pdrag p) then Drag true (dstart (pdrag p)) (pointer (dcur (pdrag p)) mids) (dbtn (pdrag p)) (dmods (pdrag p)) (dthr (pdrag p)) else pdrag p.
Proof.
  induction mids as [|e t IH]; intros p H.
  - cbn. split; auto. destruct (pdrag p) as [a b c d f g]. cbn. destruct a; auto.
  - inversion H as [|? ? [H1 H2] H3]; subst. cbn [run]. assert (S1 : pclick (fst (process p e)) = pclick p /\ pdrag (fst (process p e)) = if dactive (pdrag p) then Drag true (dstart (pdrag p)) (match etyp e with EMotion => epos e | _ => dcur (pdrag p) end) (dbtn (pdrag p)) (dmods (pdrag p)) (dthr (pdrag p)) else pdrag p).
    { unfold process, drag_motion. destruct (pdrag p) as [a b c d f g] eqn:ED. destruct (etyp e); try congruence; cbn [fst pclick pdrag dactive dstart dcur dbtn dmods dthr]; rewrite ?ED; destruct a; cbn [negb fst snd pclick pdrag dstart dbtn dmods dthr]; auto. }
    destruct (process p e) as [p1 o1]. cbn [fst] in S1. destruct S1 as [S1 S2]. destruct (IH p1 H3) as [I1 I2]. destruct (run p1 t) as [p2 o2]. cbn [fst] in *. split; [congruence|]. rewrite I2, S2.
    destruct (dactive (pdrag p)) eqn:A; [|rewrite A; reflexivity]. cbn [dactive dstart dcur dbtn dmods dthr]. reflexivity.
Qed.
Definition threshold (thr : Z) : Z := if thr <=? 0 then 2 else thr.
Definition timeout_of (t : Z) : Z := if t <=? 0 then 500000000 else t.
Definition tolerance_of (t : Z) : Z := if t <? 0 then 1 else t.
Lemma cfg_step p e : ctimeout (pclick (fst (process p e))) = ctimeout (pclick p) /\ ctol (pclick (fst (process p e))) = ctol (pclick p) /\ dthr (pdrag (fst (process p e))) = dthr (pdrag p) /\ phover (fst (process p e)) = phover p /\ pscroll (fst (process p e)) = pscroll p.
Proof.
  unfold process, drag_press, drag_motion, drag_release, detect_click. destruct (etyp e) eqn:K; cbn [fst pclick pdrag phover pscroll]; auto 10.
  - destruct (dactive (pdrag p)); cbn [negb]; [destruct (is_drag (pdrag p)); [cbn; auto|]|];
    match goal with |- context [if ?n =? 1 then _ else _] => destruct (n =? 1); [|destruct (n =? 2); [|destruct (n =? 3)]] end; cbn; auto 10.
  - destruct (dactive (pdrag p)); cbn; auto 10.
Qed.
Lemma cfg_run es : forall p, ctimeout (pclick (fst (run p es))) = ctimeout (pclick p) /\ ctol (pclick (fst (run p es))) = ctol (pclick p) /\ dthr (pdrag (fst (run p es))) = dthr (pdrag p) /\ phover (fst (run p es)) = phover p /\ pscroll (fst (run p es)) = pscroll p.
Proof.
  induction es as [|e t IH]; intros p; [cbn; auto|]. cbn [run]. pose proof (cfg_step p e) as C. destruct (process p e) as [p1 o1]. cbn [fst] in C. specialize (IH p1). destruct (run p1 t). cbn [fst] in *. intuition congruence.
Qed.
(* ---------- C42 ---------- *)
(** The clicks announced so far, newest first. *)
Definition clicks (outs : list event) : list event := rev (filter (fun o => is_click (etyp o)) outs).
Definition cinv (tm tol : Z) (p : proc) (cl : list event) : Prop :=
  ctimeout (pclick p) = tm /\ ctol (pclick p) = tol /\
  match cl with [] => lastc (pclick p) = None
  | c :: _ => lastc (pclick p) = Some c /\ ccount (pclick p) = (Z.of_nat (run_len tm tol cl) - 1) mod 3 + 1 end.
Lemma run_len_pos tm tol e t : (1 <= run_len tm tol (e :: t))%nat.
Proof. cbn [run_len]. destruct t; auto. destruct (follows tm tol e e0); lia. Qed.
Lemma run_len_type tm tol e k t : run_len tm tol (with_type e k :: t) = run_len tm tol (e :: t).
Proof. reflexivity. Qed.
Lemma kind_cases n : (1 <= n)%nat -> click_kind n = (if (Z.of_nat n - 1) mod 3 + 1 =? 1 then EClick else if (Z.of_nat n - 1) mod 3 + 1 =? 2 then EDoubleClick else ETripleClick).
Proof.
  intros H. unfold click_kind. assert (E : Z.of_nat (n mod 3) = Z.of_nat n mod 3) by (rewrite Nat2Z.inj_mod; reflexivity).
  destruct (n mod 3)%nat as [|[|[|]]] eqn:M; [| | |pose proof (Nat.mod_upper_bound n 3 ltac:(lia)); lia].
  - replace ((Z.of_nat n - 1) mod 3) with 2 by lia. reflexivity.
  - replace ((Z.of_nat n - 1) mod 3) with 0 by lia. reflexivity.
  - replace ((Z.of_nat n - 1) mod 3) with 1 by lia. reflexivity.
Qed.
Lemma detect_spec tm tol p cl e : cinv tm tol p cl -> etyp e = ERelease -> let c := with_type e (click_kind (run_len tm tol (e :: cl))) in
  snd (detect_click (pclick p) e) = Some c /\ forall d h s, cinv tm tol (Proc (fst (detect_click (pclick p) e)) d h s) (c :: cl).
Proof.
  intros (T & O & L) K. cbv zeta. unfold detect_click. rewrite K. match goal with |- context [if ?m =? 1 then _ else _] => set (n := m) end.
  assert (N : n = match cl with [] => 1 | prev :: _ => if follows tm tol e prev then (Z.of_nat (run_len tm tol cl) - 1) mod 3 + 2 else 1 end).
  { subst n. destruct cl as [|prev t]; [rewrite L; reflexivity|]. destruct L as [L1 L2]. rewrite L1, L2, T, O, distance_eq. unfold follows. destruct (_ && _ && _); lia. }
  assert (M : (if n =? 1 then (1, EClick) else if n =? 2 then (2, EDoubleClick) else if n =? 3 then (3, ETripleClick) else (1, EClick)) =
    ((Z.of_nat (run_len tm tol (e :: cl)) - 1) mod 3 + 1, click_kind (run_len tm tol (e :: cl)))).
  { rewrite kind_cases by apply run_len_pos. rewrite N. clear N L n. destruct cl as [|prev t]; [reflexivity|]. change (run_len tm tol (e :: prev :: t)) with (if follows tm tol e prev then S (run_len tm tol (prev :: t)) else 1%nat).
    destruct (follows tm tol e prev); [|reflexivity]. pose proof (run_len_pos tm tol prev t) as P. set (r := run_len tm tol (prev :: t)) in *. clearbody r.
    replace (Z.of_nat (S r) - 1) with (Z.of_nat r) by lia. assert (D : (Z.of_nat r - 1) mod 3 = 0 \/ (Z.of_nat r - 1) mod 3 = 1 \/ (Z.of_nat r - 1) mod 3 = 2) by lia.
    destruct D as [D|[D|D]]; rewrite D; [replace (Z.of_nat r mod 3) with 1 by lia|replace (Z.of_nat r mod 3) with 2 by lia|replace (Z.of_nat r mod 3) with 0 by lia]; reflexivity. }
  rewrite M. cbn [fst snd]. split; auto. intros d h s. split; [cbn; auto|]. split; [cbn; auto|]. cbn [pclick lastc ccount]. split; auto.
Qed.
Lemma clicks_app a b : clicks (a ++ b) = clicks b ++ clicks a.
Proof. unfold clicks. rewrite filter_app, rev_app_distr. reflexivity. Qed.
Lemma cinv_step tm tol p cl e : cinv tm tol p cl -> raw (etyp e) -> cinv tm tol (fst (process p e)) (clicks (snd (process p e)) ++ cl).
Proof.
  intros C R. unfold process. destruct R as [K|[K|[K|K]]]; rewrite K.
  - cbn [fst snd]. unfold clicks. cbn [filter]. rewrite K. exact C.
  - destruct (drag_release (pdrag p)) as [d was]. destruct was; [cbn [fst snd]; unfold clicks; cbn [filter]; rewrite K; exact C|].
    destruct (detect_spec tm tol p cl e C K) as [D1 D2]. destruct (detect_click (pclick p) e) as [c o]. cbn [fst snd] in *. subst o. cbn [fst snd]. unfold clicks. cbn [app filter]. rewrite K. cbn [etyp with_type is_click].
    replace (is_click (click_kind (run_len tm tol (e :: cl)))) with true by (unfold click_kind; destruct (_ mod 3)%nat as [|[|[|]]]; reflexivity). cbn [rev app]. apply D2.
  - destruct (drag_motion (pdrag p) e) as [d o] eqn:E. unfold drag_motion in E. destruct (negb (dactive (pdrag p))).
    + injection E as <- <-. cbn [fst snd]. unfold clicks. cbn [filter]. rewrite K. exact C.
    + assert (clicks (match o with Some k => [k] | None => [e] end) = []) as Hc.
      { injection E as _ <-. match goal with |- context [if ?b then Some _ else None] => destruct b end; unfold clicks; cbn [filter etyp is_click]; [reflexivity|rewrite K; reflexivity]. }
      cbn [fst snd]. rewrite Hc. exact C.
  - cbn [fst snd]. unfold clicks. cbn [filter]. rewrite K. exact C.
Qed.
Lemma cinv_run tm tol es : forall p cl, cinv tm tol p cl -> Forall (fun e => raw (etyp e)) es -> cinv tm tol (fst (run p es)) (clicks (snd (run p es)) ++ cl).
Proof.
  induction es as [|e t IH]; intros p cl C F; [exact C|]. inversion F as [|? ? F1 F2]; subst. cbn [run]. pose proof (cinv_step tm tol p cl e C F1) as C1. destruct (process p e) as [p1 o1]. cbn [fst snd] in C1.
  pose proof (IH p1 _ C1 F2) as C2. destruct (run p1 t) as [p2 o2]. cbn [fst snd] in *. rewrite clicks_app, <- app_assoc. exact C2.
Qed.
(** After any history, a release that ends a drag comes out alone; any other release comes out after one click event at its own
    place, which is single, double or triple according to how many clicks in a row, this one included, each came within the
    timeout, at most the tolerance away and with the same button as the one before: 1, 2, 3, then 1 again. *)
Theorem C42_click_counts : forall timeout tol thr lines es e, Forall (fun x => raw (etyp x)) es -> etyp e = ERelease ->
  let '(p, outs) := run (new_proc_with timeout tol thr lines) es in
  if is_drag (pdrag p) then snd (process p e) = [e]
  else snd (process p e) = [Event (click_kind (run_len (timeout_of timeout) (tolerance_of tol) (e :: clicks outs))) (ebtn e) (epos e) (emods e) (etime e); e].
Proof.
  intros timeout tol thr lines es e F K. pose proof (cinv_run (timeout_of timeout) (tolerance_of tol) es (new_proc_with timeout tol thr lines) []) as C.
  destruct (run (new_proc_with timeout tol thr lines) es) as [p outs]. cbn [fst snd] in C. rewrite app_nil_r in C. assert (C' : cinv (timeout_of timeout) (tolerance_of tol) p (clicks outs)) by (apply C; auto; split; [reflexivity|]; split; reflexivity).
  destruct (detect_spec _ _ _ _ e C' K) as [D _]. unfold process. rewrite K. unfold drag_release. unfold is_drag at 1. destruct (dactive (pdrag p)) eqn:A; cbn [negb].
  - unfold is_drag. rewrite A. cbn [negb]. destruct (dthr (pdrag p) <=? distance (dstart (pdrag p)) (dcur (pdrag p))); [reflexivity|]. destruct (detect_click (pclick p) e) as [c o]. cbn [snd] in *. rewrite D. reflexivity.
  - destruct (detect_click (pclick p) e) as [c o]. cbn [snd] in *. rewrite D. reflexivity.
Qed.
(** Reset forgets everything: the processor is as new. *)
Theorem C42_reset : forall timeout tol thr lines es, reset_proc (fst (run (new_proc_with timeout tol thr lines) es)) = new_proc_with timeout tol thr lines.
Proof.
  intros timeout tol thr lines es. destruct (cfg_run es (new_proc_with timeout tol thr lines)) as (A & B & C & D & E). unfold reset_proc, reset_click, reset_drag. rewrite A, B, C, E. reflexivity.
Qed.
Definition rel (t x : Z) : event := Event ERelease BLeft (Pos x 0) 0 t.
Example C42_case : map etyp (snd (run new_proc [rel 0 5; rel 500000000 6; rel 600000000 7; rel 600000001 7; rel 1100000002 7])) = [EClick; ERelease; EDoubleClick; ERelease; ETripleClick; ERelease; EClick; ERelease; EClick; ERelease].
Proof. reflexivity. Qed.

(* ---------- C43 ---------- *)
(** With the button held since [press]: a motion at least the threshold away from the press point comes out as a drag event of
    that button and those modifiers, a nearer one as itself; IsDragging says whether the pointer is that far away. *)
Theorem C43_drag_while_held : forall timeout tol thr lines older press mids e, etyp press = EPress -> no_button_change mids ->
  let p := fst (run (new_proc_with timeout tol thr lines) (older ++ press :: mids)) in
  is_drag (pdrag p) = (threshold thr <=? cells_apart (epos press) (pointer (epos press) mids)) /\
  (etyp e = EMotion -> snd (process p e) = if threshold thr <=? cells_apart (epos press) (epos e) then [Event EDrag (ebtn press) (epos e) (emods press) (etime e)] else [e]) /\
  (etyp e = ERelease -> is_drag (pdrag (fst (process p e))) = false /\
     (threshold thr <= cells_apart (epos press) (pointer (epos press) mids) -> snd (process p e) = [e]) /\
     (cells_apart (epos press) (pointer (epos press) mids) < threshold thr -> exists c, is_click (etyp c) = true /\ snd (process p e) = [c; e])).
Proof.
  intros timeout tol thr lines older press mids e K N p.
  assert (DP : pdrag p = Drag true (epos press) (pointer (epos press) mids) (ebtn press) (emods press) (threshold thr)).
  { subst p. rewrite run_app. cbn [fst]. cbn [run]. destruct (cfg_run older (new_proc_with timeout tol thr lines)) as (_ & _ & CT & _). set (q := fst (run (new_proc_with timeout tol thr lines) older)) in *. clearbody q.
    unfold process. rewrite K. destruct (mids_run mids (Proc (pclick q) (drag_press (pdrag q) press) (phover q) (pscroll q)) N) as [_ M]. destruct (run _ mids) as [p2 o2]. cbn [fst] in *. rewrite M. unfold drag_press. rewrite K. cbn [pdrag dactive dstart dcur dbtn dmods dthr]. rewrite CT. reflexivity. }
  clearbody p. split; [rewrite DP; unfold is_drag; cbn [dactive dstart dcur dthr negb]; rewrite distance_eq; reflexivity|]. split.
  - intros T. unfold process, drag_motion. rewrite T, DP. unfold is_drag. cbn [dactive dstart dcur dthr dbtn dmods negb snd]. rewrite distance_eq. destruct (threshold thr <=? _); reflexivity.
  - intros T. unfold process, drag_release. rewrite T, DP. set (ID := is_drag (Drag true _ _ _ _ _)). assert (IDE : ID = (threshold thr <=? cells_apart (epos press) (pointer (epos press) mids))) by (subst ID; unfold is_drag; cbn [dactive dstart dcur dthr negb]; rewrite distance_eq; reflexivity). rewrite IDE. clear IDE ID. cbn [dactive negb]. destruct (threshold thr <=? cells_apart (epos press) (pointer (epos press) mids)) eqn:Q.
    + cbn [fst snd pdrag is_drag dactive negb]. split; auto. split; auto. lia.
    + unfold detect_click. rewrite T. match goal with |- context [if ?n =? 1 then _ else _] => destruct (n =? 1); [|destruct (n =? 2); [|destruct (n =? 3)]] end; cbn [fst snd pdrag is_drag dactive negb]; (split; [reflexivity|]; split; [intros; lia|]; intros _; eexists; split; [|reflexivity]; reflexivity).
Qed.
(** With no button held since the last release (or ever), motions pass unchanged, nothing counts as dragging. *)
Theorem C43_no_drag_otherwise : forall timeout tol thr lines older mids e, no_button_change mids -> (older = [] \/ exists o r, older = o ++ [r] /\ etyp r = ERelease) ->
  let p := fst (run (new_proc_with timeout tol thr lines) (older ++ mids)) in
  is_drag (pdrag p) = false /\ (etyp e = EMotion -> snd (process p e) = [e]) /\
  (etyp e = ERelease -> exists c, is_click (etyp c) = true /\ snd (process p e) = [c; e]).
Proof.
  intros timeout tol thr lines older mids e N H p.
  assert (A : dactive (pdrag p) = false).
  { subst p. rewrite run_app. cbn [fst]. destruct (mids_run mids (fst (run (new_proc_with timeout tol thr lines) older)) N) as [_ M]. rewrite M. clear M.
    assert (B : dactive (pdrag (fst (run (new_proc_with timeout tol thr lines) older))) = false).
    { destruct H as [->|(o & r & -> & R)]; [reflexivity|]. rewrite run_app. cbn [fst run]. set (q := fst (run (new_proc_with timeout tol thr lines) o)). clearbody q. unfold process, drag_release, detect_click. rewrite R.
      destruct (dactive (pdrag q)) eqn:AQ; cbn [negb]; [destruct (is_drag (pdrag q)); [reflexivity|]|];
      match goal with |- context [if ?n =? 1 then _ else _] => destruct (n =? 1); [|destruct (n =? 2); [|destruct (n =? 3)]] end; cbn; auto. }
    rewrite B. exact B. }
  clearbody p. split; [unfold is_drag; rewrite A; reflexivity|]. split.
  - intros T. unfold process, drag_motion. rewrite T, A. reflexivity.
  - intros T. unfold process, drag_release, detect_click. rewrite T, A. cbn [negb]. match goal with |- context [if ?n =? 1 then _ else _] => destruct (n =? 1); [|destruct (n =? 2); [|destruct (n =? 3)]] end; cbn [snd app]; eexists; (split; [|reflexivity]; reflexivity).
Qed.
Definition ev (t : etype) (x y : Z) : event := Event t BLeft (Pos x y) 0 0.
Example C43_case : map etyp (snd (run new_proc [ev EPress 3 3; ev EMotion 4 3; ev EMotion 4 4; ev EMotion 9 9; ev ERelease 9 9; ev EMotion 20 20])) = [EPress; EMotion; EDrag; EDrag; ERelease; EMotion].
Proof. reflexivity. Qed.
(* ---------- C94: a drag that returns ---------- *)
(** "A gesture in which drags were reported yields no click" fails when the pointer returns near the press point before the release. *)
Theorem C94_drag_back_clicks_refuted : exists press out back r, etyp press = EPress /\ etyp out = EMotion /\ etyp back = EMotion /\ etyp r = ERelease /\
  map etyp (snd (run new_proc [press; out; back; r])) = [EPress; EDrag; EMotion; EClick; ERelease].
Proof. exists (ev EPress 3 3), (ev EMotion 30 3), (ev EMotion 3 3), (ev ERelease 3 3). repeat split. Qed.
(** It holds for every gesture whose last pointer position is at least the threshold from the press point. *)
Theorem C294_drag_no_click : forall timeout tol thr lines older press mids r, etyp press = EPress -> no_button_change mids -> etyp r = ERelease ->
  threshold thr <= cells_apart (epos press) (pointer (epos press) mids) ->
  snd (process (fst (run (new_proc_with timeout tol thr lines) (older ++ press :: mids))) r) = [r].
Proof. intros timeout tol thr lines older press mids r K N R H. destruct (C43_drag_while_held timeout tol thr lines older press mids r K N) as (_ & _ & C). apply C; auto. Qed.

(* ---------- C44: menus ---------- *)
(** A menu that fits the screen, opened at a cursor with non-negative coordinates, lies wholly on the screen; in each direction it
    opens at the cursor if there is room, else ends at the screen's edge. One that does not fit opens in the corner. *)
Theorem C44_menu_on_screen : forall c mw mh sw sh, 0 <= px c -> 0 <= py c -> 0 <= mw -> 0 <= mh -> 0 <= sw -> 0 <= sh ->
  let q := menu_position c mw mh sw sh in
  (mw <= sw /\ mh <= sh -> 0 <= px q /\ px q + mw <= sw /\ 0 <= py q /\ py q + mh <= sh /\
     px q = Z.min (px c) (sw - mw) /\ py q = Z.min (py c) (sh - mh)) /\
  (sw < mw \/ sh < mh -> q = Pos 0 0).
Proof.
  intros c mw mh sw sh H1 H2 H3 H4 H5 H6. cbv zeta. unfold menu_position.
  replace (mw <? 0) with false by lia. replace (mh <? 0) with false by lia. replace (sw <? 0) with false by lia. replace (sh <? 0) with false by lia. split.
  - intros [A B]. replace ((sw <? mw) || (sh <? mh)) with false by lia. replace (sw - mw <? 0) with false by lia. replace (sh - mh <? 0) with false by lia.
    destruct (sw <? px c + mw) eqn:E1, (sh <? py c + mh) eqn:E2; cbn [px py]; lia.
  - intros A. replace ((sw <? mw) || (sh <? mh)) with true by lia. reflexivity.
Qed.
Example C44_case : menu_position (Pos 75 22) 20 5 80 24 = Pos 60 19.
Proof. reflexivity. Qed.

(* ---------- C95: hover ---------- *)
(** Being inside an area: its left and top edges belong to it, the right and bottom do not. *)
Definition inside (p : pos) (a : area) : Prop := bx (abox a) <= px p < bx (abox a) + bw (abox a) /\ by_ (abox a) <= py p < by_ (abox a) + bh (abox a).
(** [under p areas id]: [id] is the component under the pointer, the first area of the list it is inside of; [] for none. *)
Definition under (p : pos) (areas : list area) (id : list Z) : Prop :=
  (Forall (fun a => ~ inside p a) areas /\ id = []) \/ exists pre a post, areas = pre ++ a :: post /\ Forall (fun b => ~ inside p b) pre /\ inside p a /\ id = aid a.
Lemma contains_inside a p : box_contains (abox a) p = true <-> inside p a.
Proof. unfold box_contains, inside. lia. Qed.
Lemma find_under p areas : under p areas (match find (fun a => box_contains (abox a) p) areas with Some a => aid a | None => [] end).
Proof.
  induction areas as [|a t IH]; [left; auto|]. cbn [find]. destruct (box_contains (abox a) p) eqn:E.
  - right. exists [], a, t. repeat split; auto; apply contains_inside in E; apply E.
  - assert (NI : ~ inside p a) by (rewrite <- contains_inside; congruence). destruct IH as [[F Hid]|(pre & b & post & Q & F & I & Hid)].
    + left. split; auto.
    + right. exists (a :: pre), b, post. subst t. repeat split; auto; apply I.
Qed.
Fixpoint hrun (h : hover) (us : list (pos * list area)) : hover := match us with [] => h | (p, a) :: t => hrun (fst (hover_update h p a)) t end.
Definition hwf (h : hover) : Prop := hactive h = negb (list_eqb (hid h) []).
Lemma hwf_step h p a : hwf h -> hwf (fst (hover_update h p a)).
Proof.
  unfold hwf, hover_update, hovering. intros W. match goal with |- context [list_eqb ?m []] => set (id := m) end. destruct (list_eqb id []) eqn:E.
  - rewrite W. destruct (list_eqb (hid h) []) eqn:Eh; cbn [negb andb fst hactive hid]; auto. rewrite W, Eh. reflexivity.
  - destruct (negb (hactive h && _)); [cbn; rewrite E; reflexivity|]. destruct (negb (list_eqb id (hid h))); cbn [fst hactive hid]; auto. rewrite E; reflexivity.
Qed.
Lemma hwf_run us : forall h, hwf h -> hwf (hrun h us).
Proof. induction us as [|[p a] t IH]; intros h W; auto. cbn [hrun]. apply IH, hwf_step; auto. Qed.
(** After any history of updates, the component reported as hovered is the one under the pointer, IsHovering says whether there is
    one, and the event tells the change: enter when a component (new or other than before) is under the pointer, move when it is
    the same one, leave when there was one and now is none, plain motion when there was and is none. *)
Theorem C95_hover_tracks_pointer : forall us p areas, let h := hrun new_hover us in
  let '(h', t) := hover_update h p areas in
  under p areas (hid h') /\ (hovering h' = true <-> hid h' <> []) /\
  (t = EHoverEnter <-> hid h' <> [] /\ hid h' <> hid h) /\ (t = EHoverMove <-> hid h' <> [] /\ hid h' = hid h) /\
  (t = EHoverLeave <-> hid h' = [] /\ hid h <> []) /\ (t = EMotion <-> hid h' = [] /\ hid h = []).
Proof.
  intros us p areas h. assert (W : hwf h) by (apply hwf_run; reflexivity). clearbody h.
  pose proof (hwf_step h p areas W) as W'. pose proof (find_under p areas) as U. unfold hover_update in *. match type of U with under _ _ ?m => set (id := m) in * end. clearbody id.
  unfold hwf in W. unfold hovering in *. rewrite W in *. destruct (list_eqb id []) eqn:E.
  - apply list_eqb_eq in E. subst id. destruct (list_eqb (hid h) []) eqn:Eh; cbn [negb andb fst] in *.
    + apply list_eqb_eq in Eh. rewrite Eh. rewrite W. cbn. repeat split; intros; auto; try discriminate; try tauto; try congruence.
    + apply list_eqb_neq in Eh. cbn [hid hactive andb]. repeat split; intros; auto; try discriminate; try tauto; try congruence.
  - apply list_eqb_neq in E. destruct (list_eqb (hid h) []) eqn:Eh; cbn [negb andb fst] in *.
    + apply list_eqb_eq in Eh. rewrite Eh. cbn [hid hactive andb]. rewrite (proj2 (list_eqb_neq id []) E). cbn. repeat split; intros; auto; try discriminate; try tauto; try congruence.
    + apply list_eqb_neq in Eh. destruct (list_eqb id (hid h)) eqn:Ei; cbn [negb hid hactive andb].
      * apply list_eqb_eq in Ei. subst id. rewrite W. rewrite (proj2 (list_eqb_neq _ _) Eh). cbn. repeat split; intros; auto; try discriminate; try tauto; try congruence.
      * apply list_eqb_neq in Ei. rewrite (proj2 (list_eqb_neq id []) E). cbn. repeat split; intros; auto; try discriminate; try tauto; try congruence.
Qed.
Example C95_case : let a := [Area [65] (new_box 0 0 10 3); Area [66] (new_box 5 0 10 3)] in
  map (fun us => snd (hover_update (hrun new_hover us) (Pos 12 1) a)) [[]; [(Pos 12 2, a)]; [(Pos 7 1, a)]] = [EHoverEnter; EHoverMove; EHoverEnter].
Proof. reflexivity. Qed.
(** Two boxes overlap exactly when some position is inside both. *)
Theorem C95_overlaps : forall a b, 0 < bw a -> 0 < bh a -> 0 < bw b -> 0 < bh b ->
  overlaps a b = true <-> exists p, box_contains a p = true /\ box_contains b p = true.
Proof.
  intros a b H1 H2 H3 H4. unfold overlaps, box_contains. split.
  - intros H. exists (Pos (Z.max (bx a) (bx b)) (Z.max (by_ a) (by_ b))). cbn [px py]. lia.
  - intros (p & P & Q). lia.
Qed.

(* ---------- C96: scrolling ---------- *)
(** The scroll amount is negative exactly for wheel-up events, positive exactly for wheel-down events, zero for all others, and
    always the configured number of lines (3 if that is not positive). *)
Theorem C96_scroll_delta : forall n e, let d := scroll_delta n e in let k := if 0 <? n then n else 3 in
  (etyp e = EScroll -> ebtn e = BWheelUp -> d = - k) /\ (etyp e = EScroll -> ebtn e = BWheelDown -> d = k) /\
  (etyp e <> EScroll \/ ~ wheel (ebtn e) -> d = 0) /\ 0 < k.
Proof.
  intros n e. cbv zeta. unfold scroll_delta, scroll_lines, wheel. replace (n <=? 0) with (negb (0 <? n)) by lia. split; [intros -> ->; destruct (0 <? n); reflexivity|]. split; [intros -> ->; destruct (0 <? n); reflexivity|].
  split; [|destruct (0 <? n) eqn:?; lia]. intros H. destruct (etyp e) eqn:T; auto. destruct (ebtn e) eqn:B; auto; exfalso; destruct H as [H|H]; auto.
Qed.
(** A wheel report from the terminal scrolls by that amount. *)
Theorem C96_wheel_report_scrolls : forall p now r n, on_terminal r -> rk r = RPress -> wheel (rb r) ->
  exists e, snd (parse_sequence p now (sgr_report r)) = Some [e] /\ scroll_delta n e = (match rb r with BWheelUp => - scroll_lines n | _ => scroll_lines n end).
Proof.
  intros p now r n T K W. destruct (C41_sgr_press_release_wheel p now r T) as (e & TE & _ & _ & _ & S1 & PS & _); [left; auto|]. destruct TE as [B _]. apply S1 in W as TS. exists e. rewrite PS. cbn [snd]. unfold process, scroll_delta. rewrite TS, B.
  split; auto. destruct W as [-> | ->]; reflexivity.
Qed.
Example C96_case : scroll_delta 3 (Event EScroll BWheelUp (Pos 1 1) 0 0) = -3 /\ wheel BWheelUp.
Proof. split; [reflexivity|left; reflexivity]. Qed.

(* ---------- C97: enabling and disabling ---------- *)
Inductive mop := MEnable | MDisable.
(** One call with its write outcomes: the state, the bytes sent, success. *)
Definition mcall (t : tmode) (o : mop) (oks : list bool) : tmode * list Z * bool :=
  let '(t', s, _, ok) := (match o with MEnable => tm_enable_all t oks | MDisable => tm_disable_all t oks end) in (t', s, ok).
Fixpoint mrun (t : tmode) (f : Z -> bool) (ops : list (mop * list bool)) : tmode * (Z -> bool) :=
  match ops with [] => (t, f) | (o, oks) :: r => let '(t', s, _) := mcall t o oks in mrun t' (snd (tmodes s f)) r end.
Lemma tm_eq s : forall st f f', (forall n, f n = f' n) -> fst (fold_left tfeed s (st, f)) = fst (fold_left tfeed s (st, f')) /\ forall n, snd (fold_left tfeed s (st, f)) n = snd (fold_left tfeed s (st, f')) n.
Proof.
  induction s as [|c t IH]; intros st f f' E; [cbn; auto|]. cbn [fold_left]. assert (K : exists st2 g g', tfeed (st, f) c = (st2, g) /\ tfeed (st, f') c = (st2, g') /\ forall n, g n = g' n).
  { destruct st as [| | |n]; cbn [tfeed]; try (do 3 eexists; repeat split; auto; fail). destruct (is_digit c); [do 3 eexists; repeat split; auto|]. destruct (c =? 104); [do 3 eexists; repeat split; unfold upd; intros k; destruct (k =? n); auto|]. destruct (c =? 108); do 3 eexists; repeat split; auto; unfold upd; intros k; destruct (k =? n); auto. }
  destruct K as (st2 & g & g' & -> & -> & G). apply IH; auto.
Qed.
Definition tinv (t : tmode) (f : Z -> bool) : Prop := tmd t = mode_sgr /\ (forall n, n <> 1002 -> n <> 1006 -> f n = false) /\ (ten t = false -> f 1002 = false /\ f 1006 = false).
Lemma en_modes f : forall n, snd (tmodes enable_all_seq f) n = (if (n =? 1002) || (n =? 1006) then true else f n).
Proof. intros n. transitivity (upd (upd f 1006 true) 1002 true n); [reflexivity|]. unfold upd. destruct (n =? 1002), (n =? 1006); reflexivity. Qed.
Lemma dis_modes f : forall n, snd (tmodes disable_all_seq f) n = (if (n =? 1002) || (n =? 1006) then false else f n).
Proof. intros n. transitivity (upd (upd f 1006 false) 1002 false n); [reflexivity|]. unfold upd. destruct (n =? 1002), (n =? 1006); reflexivity. Qed.
Lemma dis1_modes f : forall n, snd (tmodes (disable_tracking mode_sgr) f) n = (if n =? 1006 then false else f n).
Proof. intros n. transitivity (upd f 1006 false n); [reflexivity|]. unfold upd. destruct (n =? 1002), (n =? 1006); reflexivity. Qed.
Lemma den_modes f : forall n, snd (tmodes (disable_all_seq ++ enable_all_seq) f) n = (if (n =? 1002) || (n =? 1006) then true else f n).
Proof. intros n. transitivity (upd (upd (upd (upd f 1006 false) 1002 false) 1006 true) 1002 true n); [reflexivity|]. unfold upd. destruct (n =? 1002), (n =? 1006); reflexivity. Qed.
Lemma mcall_inv t f o oks : tinv t f -> let '(t', s, ok) := mcall t o oks in tinv t' (snd (tmodes s f)) /\
  (ok = true -> ten t' = (match o with MEnable => true | MDisable => false end) /\ (o = MEnable -> snd (tmodes s f) 1002 = true /\ snd (tmodes s f) 1006 = true)).
Proof.
  intros (M & O & D). unfold mcall, tm_enable_all, tm_disable_all, tm_disable. rewrite M. destruct t as [en md]; cbn [ten tmd] in *. subst md.
  pose proof (en_modes f) as E1. pose proof (dis_modes f) as E2. pose proof (dis1_modes f) as E3. pose proof (den_modes f) as E4.
  assert (NIL : forall n, snd (tmodes [] f) n = f n) by (intros; reflexivity).
  destruct o, en; cbn [negb].
  - destruct oks as [|[] oks]; cbn [write negb Z.eqb mode_sgr Pos.eqb]; [|destruct oks as [|[] oks]; cbn [write negb]; [|destruct oks as [|[] oks]; cbn [write negb]|]|].
    1,2,3,4: (change ((disable_tracking 1006 ++ disable_tracking mode_button_motion) ++ enable_all_seq) with (disable_all_seq ++ enable_all_seq); split; [split; [reflexivity|]; split; [intros n N1 N2; rewrite E4; replace (n =? 1002) with false by lia; replace (n =? 1006) with false by lia; cbn; auto|discriminate]|intros _; split; [reflexivity|]; intros _; rewrite !E4; auto]).
    1: (change ((disable_tracking 1006 ++ disable_tracking mode_button_motion) ++ []) with disable_all_seq; split; [split; [reflexivity|]; split; [intros n N1 N2; rewrite E2; replace (n =? 1002) with false by lia; replace (n =? 1006) with false by lia; cbn; auto|intros _; rewrite !E2; auto]|discriminate]).
    1: (rewrite app_nil_r; change (disable_tracking 1006) with (disable_tracking mode_sgr); split; [split; [reflexivity|]; split; [intros n N1 N2; rewrite E3; replace (n =? 1006) with false by lia; auto|discriminate]|discriminate]).
    split; [split; [reflexivity|]; split; [intros n N1 N2; rewrite NIL; auto|discriminate]|discriminate].
  - destruct oks as [|[] oks]; cbn [write negb app].
    1,2: (split; [split; [reflexivity|]; split; [intros n N1 N2; rewrite E1; replace (n =? 1002) with false by lia; replace (n =? 1006) with false by lia; cbn; auto|discriminate]|intros _; split; [reflexivity|]; intros _; rewrite !E1; auto]).
    split; [split; [reflexivity|]; split; [intros n N1 N2; rewrite NIL; auto|intros _; rewrite !NIL; auto]|discriminate].
  - destruct oks as [|[] oks]; cbn [write negb].
    1,2: (split; [split; [reflexivity|]; split; [intros n N1 N2; rewrite E2; replace (n =? 1002) with false by lia; replace (n =? 1006) with false by lia; cbn; auto|intros _; rewrite !E2; auto]|intros _; split; [reflexivity|discriminate]]).
    split; [split; [reflexivity|]; split; [intros n N1 N2; rewrite NIL; auto|discriminate]|discriminate].
  - split; [split; [reflexivity|]; split; [intros n N1 N2; rewrite NIL; auto|intros _; rewrite !NIL; auto]|intros _; split; [reflexivity|discriminate]].
Qed.
Lemma mrun_inv ops : forall t f, tinv t f -> tinv (fst (mrun t f ops)) (snd (mrun t f ops)).
Proof.
  induction ops as [|[o oks] r IH]; intros t f I; [exact I|]. cbn [mrun]. pose proof (mcall_inv t f o oks I) as K. destruct (mcall t o oks) as [[t' s] ok]. apply IH, K.
Qed.
(** On a terminal with mouse reporting off, after any history of Enable and Disable calls, some of whose writes may have failed: while
    IsEnabled is false the terminal does not report the mouse and no mode is left on; a further Disable that succeeds leaves it so
    whatever happened before; an Enable that succeeds leaves SGR button-motion reporting on; only those two modes are ever touched. *)
Theorem C97_enable_disable : forall ops f0, (forall n, f0 n = false) -> let '(t, f) := mrun new_tmode f0 ops in
  (ten t = false -> tracking f = false /\ forall n, f n = false) /\
  (forall oks, let '(t', s, ok) := mcall t MDisable oks in ok = true -> ten t' = false /\ forall n, snd (tmodes s f) n = false) /\
  (forall oks, let '(t', s, ok) := mcall t MEnable oks in ok = true -> ten t' = true /\ snd (tmodes s f) 1006 = true /\ snd (tmodes s f) 1002 = true) /\
  (forall n, n <> 1002 -> n <> 1006 -> f n = false) /\
  (ten t = false -> forall oks, mcall t MDisable oks = (t, [], true)).
Proof.
  intros ops f0 F0. assert (I0 : tinv new_tmode f0) by (split; [reflexivity|]; split; auto). pose proof (mrun_inv ops _ _ I0) as I. destruct (mrun new_tmode f0 ops) as [t f]. cbn [fst snd] in I.
  assert (ALL : forall t f, tinv t f -> ten t = false -> forall n, f n = false).
  { intros t0 f1 (M & O & D) E n. destruct (Z.eq_dec n 1002) as [->|N1]; [apply D; auto|]. destruct (Z.eq_dec n 1006) as [->|N2]; [apply D; auto|]. auto. }
  split; [intros E; split; [unfold tracking; rewrite !(ALL t f I E); reflexivity|apply (ALL t f I E)]|].
  split. { intros oks. pose proof (mcall_inv t f MDisable oks I) as K. destruct (mcall t MDisable oks) as [[t' s] ok]. intros ->. destruct K as [K1 K2]. destruct (K2 eq_refl) as [K3 _]. split; auto. apply (ALL t'); auto. }
  split. { intros oks. pose proof (mcall_inv t f MEnable oks I) as K. destruct (mcall t MEnable oks) as [[t' s] ok]. intros ->. destruct K as [K1 K2]. destruct (K2 eq_refl) as [K3 K4]. destruct (K4 eq_refl). auto. }
  split; [apply I|]. intros E oks. unfold mcall, tm_disable_all. rewrite E. reflexivity.
Qed.
Example C97_case : let '(t, f) := mrun new_tmode (fun _ => false) [(MEnable, []); (MEnable, [true; false]); (MDisable, [])] in ten t = false /\ f 1002 = false /\ f 1006 = false.
Proof. repeat split; reflexivity. Qed.

Print Assumptions C41_sgr_press_release_wheel. Print Assumptions C41_sgr_roundtrip. Print Assumptions C42_click_counts. Print Assumptions C42_reset.
Print Assumptions C43_drag_while_held. Print Assumptions C43_no_drag_otherwise. Print Assumptions C44_menu_on_screen. Print Assumptions C90_parse_sequence_never_drags_refuted.
Print Assumptions C90_motion_position_partial. Print Assumptions C263_x10_press. Print Assumptions C91_x10_release_is_press_refuted. Print Assumptions C92_urxvt_buttons_lost_refuted.
Print Assumptions C264_urxvt_position. Print Assumptions C264_urxvt_own_encoding. Print Assumptions C265_x10_encoder. Print Assumptions C93_x10_encoder_wraps_refuted.
Print Assumptions C94_drag_back_clicks_refuted. Print Assumptions C294_drag_no_click. Print Assumptions C95_hover_tracks_pointer. Print Assumptions C95_overlaps. Print Assumptions C96_scroll_delta.
Print Assumptions C96_wheel_report_scrolls. Print Assumptions C97_enable_disable.
