(** C305-C307: what a text input's View returns. Model: InViewModel, InModel. *)
From Verif Require Import Prelude Utf8 InModel InSpec InProofs InViewModel.

Section Props.
Variable brk : list Z -> Z -> bool.
Variables hl ps : list Z -> list Z.

Lemma vapply_valid os : forall v, ivalid brk (base v) -> ivalid brk (base (vapply_all brk os v)).
Proof.
  induction os as [|o os IH]; intros v V; [exact V|]. apply IH. destruct o as [o|p|b]; cbn [vapply base]; auto.
  exact (iapply_all_valid brk [o] (base v) V).
Qed.

(** ** C305 *)
(** View never fails, whatever was done to the input before. *)
Theorem C305_total : forall w os, exists s, view brk hl ps (vapply_all brk os (new_ivw w)) = Some s.
Proof.
  intros w os. set (v := vapply_all brk os (new_ivw w)). assert (V : ivalid brk (base v)) by (apply vapply_valid, new_ivalid).
  destruct (render_total brk (base v) V) as [d Hd]. unfold view. rewrite Hd.
  destruct (content (base v)), (focused (base v)), (ph v), d; eauto.
Qed.
(** The placeholder is the whole view while the input is empty and not focused ... *)
Theorem C305_placeholder_shown : forall v, content (base v) = [] -> focused (base v) = false -> ph v <> [] ->
  view brk hl ps v = Some (ps (ph v)).
Proof. intros v H1 H2 H3. unfold view. rewrite H1, H2. destruct (ph v); [congruence|reflexivity]. Qed.
(** The placeholder shown is the one set last, and the cursor is on as the last ShowCursor said (on, if it was never called). *)
Lemma vapply_app os1 : forall os2 v, vapply_all brk (os1 ++ os2) v = vapply_all brk os2 (vapply_all brk os1 v).
Proof. intros os2 v. unfold vapply_all. apply fold_left_app. Qed.
Lemma ph_kept os : forall v, (forall p, ~ In (VPlaceholder p) os) -> ph (vapply_all brk os v) = ph v.
Proof.
  induction os as [|o os IH]; intros v Hno; [reflexivity|]. change (vapply_all brk (o :: os) v) with (vapply_all brk os (vapply brk o v)).
  rewrite IH by (intros p Hin; apply (Hno p); right; exact Hin). destruct o as [o|p|b]; try reflexivity. exfalso. apply (Hno p). left. reflexivity.
Qed.
Lemma show_kept os : forall v, (forall b, ~ In (VShow b) os) -> show (vapply_all brk os v) = show v.
Proof.
  induction os as [|o os IH]; intros v Hno; [reflexivity|]. change (vapply_all brk (o :: os) v) with (vapply_all brk os (vapply brk o v)).
  rewrite IH by (intros p Hin; apply (Hno p); right; exact Hin). destruct o as [o|p|b]; try reflexivity. exfalso. apply (Hno b). left. reflexivity.
Qed.
Theorem C305_last_placeholder_shown : forall w os1 p os2, (forall q, ~ In (VPlaceholder q) os2) -> p <> [] ->
  let v := vapply_all brk (os1 ++ VPlaceholder p :: os2) (new_ivw w) in
  content (base v) = [] -> focused (base v) = false -> view brk hl ps v = Some (ps p).
Proof.
  intros w os1 p os2 Hno Hp v H1 H2. assert (Hph : ph v = p).
  { subst v. rewrite vapply_app. change (VPlaceholder p :: os2) with ([VPlaceholder p] ++ os2). rewrite vapply_app, ph_kept by exact Hno. reflexivity. }
  rewrite (C305_placeholder_shown v H1 H2) by congruence. rewrite Hph. reflexivity.
Qed.
Theorem C305_last_show_cursor : forall w os1 b os2, (forall q, ~ In (VShow q) os2) ->
  show (vapply_all brk (os1 ++ VShow b :: os2) (new_ivw w)) = b /\ show (vapply_all brk os2 (new_ivw w)) = true.
Proof.
  intros w os1 b os2 Hno. split; [|rewrite show_kept by exact Hno; reflexivity].
  rewrite vapply_app. change (VShow b :: os2) with ([VShow b] ++ os2). rewrite vapply_app, show_kept by exact Hno. reflexivity.
Qed.
(** ... and otherwise it has no influence on the view at all. *)
Theorem C305_placeholder_hidden : forall v p, content (base v) <> [] \/ focused (base v) = true ->
  view brk hl ps (IV (base v) p (show v)) = view brk hl ps v.
Proof. intros v p H. unfold view, render_cursor. cbn [base ph show]. destruct (content (base v)), (focused (base v)), H; congruence. Qed.
End Props.

Lemma split_every s p : split_at every s p = (firstn p s, firstn 1 (skipn p s), skipn (S p) s).
Proof.
  unfold split_at. rewrite gs_every, map_length, firstn_map, skipn_map, !concat_single, nth_single. destruct (_ <? _)%nat eqn:E; [reflexivity|].
  apply Nat.ltb_ge in E. rewrite firstn_all2, !skipn_all2 by lia. reflexivity.
Qed.

Lemma cell_inj b a c b' a' c' : Some (WithCell b a c) = Some (WithCell b' a' c') -> b = b' /\ a = a' /\ c = c'.
Proof. intros Hi. injection Hi. auto. Qed.

(** The window drawn without focus. *)
Lemma render_unfocused t : ivalid every t -> ascii (content t) -> focused t = false ->
  exists x s y, render_content every t = Some (NoCell s) /\ content t = x ++ s ++ y /\ Z.of_nat (length s) <= iwidth t /\
    (length x <= cursor t <= length x + length s)%nat /\ (Z.of_nat (length (content t)) <= iwidth t -> s = content t).
Proof.
  intros V As Hf. pose proof V as [Hc _ Hw]. rewrite gs_every, map_length in Hc. unfold render_content. rewrite split_every.
  set (s := content t) in *. set (p := cursor t) in *.
  assert (SA : firstn 1 (skipn p s) ++ skipn (S p) s = skipn p s).
  { replace (S p) with (p + 1)%nat by lia. rewrite <- skipn_plus. apply firstn_skipn. }
  rewrite SA, firstn_skipn. unfold bytes. rewrite (enc_ascii s As), Hf. destruct (Z.of_nat (length s) <=? iwidth t) eqn:L.
  - exists [], s, []. rewrite app_nil_r. cbn [app length]. repeat split; auto; lia.
  - cbv zeta. replace (Z.of_nat p <? 0) with false by lia. set (n := Z.of_nat (length s)) in *. set (w := iwidth t) in *.
    match goal with |- context [slice _ ?x ?y] => assert (X : 0 <= x <= y /\ y <= n /\ x <= Z.of_nat p < x + w /\ y <= x + w /\ Z.of_nat p <= y); [|set (ve := y) in *; set (so := x) in *] end.
    { destruct (0 + w <=? _) eqn:E1; destruct (n <? _) eqn:E2; lia. }
    clearbody ve. clearbody so. destruct X as (X1 & X2 & X3 & X4 & X5). rewrite slice_some by auto. cbn [andb].
    exists (firstn (Z.to_nat so) s), (firstn (Z.to_nat (ve - so)) (skipn (Z.to_nat so) s)), (skipn (Z.to_nat ve) s).
    split; [reflexivity|]. rewrite !firstn_length, !skipn_length. repeat split; try lia.
    replace (Z.to_nat ve) with (Z.to_nat so + Z.to_nat (ve - so))%nat by lia. rewrite <- skipn_plus, firstn_skipn. symmetry. apply firstn_skipn.
Qed.

Section Ascii.
Variables hl ps : list Z -> list Z.

(** Without focus, or with the cursor switched off, View is a plain piece of the text, the cursor inside it,
    and all of the text if that fits. *)
Theorem C305_plain_text : forall v, ivalid every (base v) -> ascii (content (base v)) -> content (base v) <> [] ->
  focused (base v) = false \/ show v = false ->
  exists x s y, view every hl ps v = Some s /\ content (base v) = x ++ s ++ y /\ Z.of_nat (length s) <= iwidth (base v) /\
    (length x <= cursor (base v) <= length x + length s)%nat /\
    (Z.of_nat (length (content (base v))) <= iwidth (base v) -> s = content (base v)).
Proof.
  intros v V As Hne Hd. assert (Hv : view every hl ps v = match render_content every (base v) with Some (WithCell b a c) => Some (b ++ render_cursor hl v a ++ c) | Some (NoCell s) => Some s | None => None end).
  { unfold view. destruct (content (base v)); [congruence|reflexivity]. }
  rewrite Hv. destruct (focused (base v)) eqn:Hf.
  - destruct Hd as [|Hs]; [discriminate|]. destruct (render_window (base v) V As Hf) as (x & b & a & c & y & E1 & E2 & E3 & E4 & E5 & E6 & E7).
    exists x, (b ++ a ++ c), y. rewrite E1. unfold render_cursor. rewrite Hs. cbn [negb]. split; [reflexivity|]. split; [exact E2|]. split; [exact E7|].
    assert (Lx : length (x ++ b) = cursor (base v)).
    { rewrite E3, ibefore_every, firstn_length. pose proof (i_cursor _ _ V) as Hc. rewrite gs_every, map_length in Hc. lia. }
    rewrite app_length in Lx. split; [rewrite !app_length; lia|]. intros Hfit.
    assert (SA : firstn 1 (skipn (cursor (base v)) (content (base v))) ++ skipn (S (cursor (base v))) (content (base v)) = skipn (cursor (base v)) (content (base v))).
    { replace (S (cursor (base v))) with (cursor (base v) + 1)%nat by lia. rewrite <- skipn_plus. apply firstn_skipn. }
    unfold render_content in E1. rewrite split_every, SA, firstn_skipn, Hf in E1. unfold bytes in E1. rewrite (enc_ascii (content (base v)) As) in E1.
    replace (_ <=? iwidth (base v)) with true in E1 by lia. apply cell_inj in E1 as (Hb & Ha & Hcc). rewrite <- Hb, <- Ha, <- Hcc.
    rewrite (enc_ascii (firstn _ (content (base v)))) by (apply ascii_sub; exact As). rewrite (enc_ascii (firstn 1 _)) by (apply ascii_sub, ascii_sub; exact As).
    rewrite (enc_ascii (skipn _ (content (base v)))) by (apply ascii_sub; exact As). rewrite SA. apply firstn_skipn.
  - destruct (render_unfocused (base v) V As Hf) as (x & s & y & E1 & E2 & E3 & E4 & E5). exists x, s, y. rewrite E1. auto.
Qed.

(** With focus and the cursor on, exactly one place is highlighted: the character at the cursor, or a blank
    behind the text. *)
Theorem C305_cursor_marked : forall v, ivalid every (base v) -> ascii (content (base v)) -> focused (base v) = true -> show v = true ->
  exists x b a c y, view every hl ps v = Some (b ++ hl (match a with [] => [32] | _ => a end) ++ c) /\
    firstn (cursor (base v)) (content (base v)) = x ++ b /\ skipn (cursor (base v)) (content (base v)) = a ++ c ++ y /\
    (length a <= 1)%nat /\ (a = [] -> skipn (cursor (base v)) (content (base v)) = []).
Proof.
  intros v V As Hf Hs. destruct (render_window (base v) V As Hf) as (x & b & a & c & y & E1 & E2 & E3 & E4 & E5 & E6 & E7).
  rewrite ibefore_every in E3. rewrite iafter_every in E4, E6. exists x, b, a, c, y. unfold view. rewrite E1, Hf.
  split; [|repeat split; auto]. destruct (content (base v)); unfold render_cursor; rewrite Hs; destruct a; reflexivity.
Qed.

(** ** C306 *)
(** The characters drawn, the highlighted one or the blank included, number at most Width, unless the text fills
    the width exactly with the cursor at its end. *)
Theorem C306_fits_width : forall v, ivalid every (base v) -> ascii (content (base v)) ->
  ~ (focused (base v) = true /\ show v = true /\ Z.of_nat (length (content (base v))) = iwidth (base v) /\ cursor (base v) = length (content (base v))) ->
  content (base v) <> [] \/ focused (base v) = true ->
  exists b cell c, (view every hl ps v = Some (b ++ hl cell ++ c) \/ (view every hl ps v = Some (b ++ c) /\ cell = [])) /\
    Z.of_nat (length b + length cell + length c) <= iwidth (base v).
Proof.
  intros v V As Hx Hne. destruct (focused (base v)) eqn:Hf.
  2: { destruct Hne as [Hne|]; [|discriminate]. destruct (C305_plain_text v V As Hne (or_introl Hf)) as (x & s & y & E1 & _ & E3 & _).
       exists s, [], []. split; [right; rewrite app_nil_r; auto|cbn [length]; lia]. }
  destruct (show v) eqn:Hs.
  2: { destruct (render_window (base v) V As Hf) as (x & b & a & c & y & E1 & E2 & E3 & E4 & E5 & E6 & E7).
       exists (b ++ a), [], c. split; [right; split; [|reflexivity]|rewrite !app_length in *; cbn [length]; lia].
       unfold view. rewrite E1, Hf. unfold render_cursor. rewrite Hs. cbn [negb]. rewrite <- app_assoc. destruct (content (base v)); reflexivity. }
  destruct (render_window (base v) V As Hf) as (x & b & a & c & y & E1 & E2 & E3 & E4 & E5 & E6 & E7).
  exists b, (match a with [] => [32] | _ => a end), c. split.
  { left. unfold view. rewrite E1, Hf. destruct (content (base v)); unfold render_cursor; rewrite Hs; destruct a; reflexivity. }
  rewrite !app_length in E7. destruct a as [|ch a]; [|cbn [length] in *; lia].
  rewrite iafter_every in E6, E4. specialize (E6 eq_refl). rewrite E6 in E4. cbn [app] in E4. symmetry in E4. apply eq_sym, app_eq_nil in E4 as [-> ->].
  rewrite app_nil_r in E2. cbn [app length] in *. rewrite app_nil_r in *.
  assert (Hc : (length (content (base v)) <= cursor (base v))%nat). { apply (f_equal (@length Z)) in E6. rewrite skipn_length in E6. cbn [length] in E6. lia. }
  pose proof (i_cursor _ _ V) as Hc'. rewrite gs_every, map_length in Hc'.
  destruct (Z.eq_dec (Z.of_nat (length b)) (iwidth (base v))) as [Eq|]; [|lia]. exfalso.
  unfold render_content in E1. rewrite split_every in E1. rewrite (firstn_all2 (content (base v))), (skipn_all2 (content (base v)) (n := cursor (base v))), (skipn_all2 (content (base v)) (n := S (cursor (base v)))) in E1 by lia.
  cbn [app firstn] in E1. rewrite app_nil_r in E1. unfold bytes in E1. rewrite (enc_ascii _ As), Hf in E1. cbn [andb] in E1.
  destruct (Z.of_nat (length (content (base v))) <=? iwidth (base v)) eqn:L.
  - injection E1 as Hb. apply Hx. repeat split; auto; [|lia]. rewrite Hb. exact Eq.
  - cbv zeta in E1. replace (Z.of_nat (cursor (base v)) <? 0) with false in E1 by lia. replace (0 + iwidth (base v) <=? Z.of_nat (cursor (base v))) with true in E1 by lia.
    replace (Z.of_nat (length (content (base v))) <? Z.of_nat (cursor (base v)) - iwidth (base v) + 1 + iwidth (base v)) with true in E1 by lia.
    pose proof (i_width _ _ V). rewrite slice_some in E1 by lia.
    replace (Z.of_nat (cursor (base v)) - iwidth (base v) + 1 <=? Z.of_nat (cursor (base v))) with true in E1 by lia.
    replace (Z.of_nat (cursor (base v)) <? Z.of_nat (cursor (base v)) - iwidth (base v) + 1 + iwidth (base v)) with true in E1 by lia. cbn [andb] in E1.
    set (vis := firstn _ _) in E1. assert (Lv : (length vis <= Z.to_nat (iwidth (base v) - 1))%nat) by (subst vis; rewrite firstn_length, skipn_length; lia).
    destruct (_ <=? Z.of_nat (length vis)); [|discriminate]. destruct (slice vis 0 _) as [vb|] eqn:Es; [|discriminate]. injection E1 as Hb _ _. subst vb.
    unfold slice in Es. destruct (_ && _) in Es; [|discriminate]. injection Es as Es. rewrite <- Es in Eq. rewrite firstn_length in Eq. cbn [Z.to_nat skipn] in Eq. lia.
Qed.
End Ascii.

(** ** C307 *)
(** Refuted: "abc" in an input of width 3, cursor at the end: three characters and the cursor's blank. *)
Theorem C307_width_exceeded_refuted : forall hl ps,
  view every hl ps (vapply_all every [VBase (IFocus true); VBase (ISetContent [97; 98; 99] 3)] (new_ivw 3)) = Some ([97; 98; 99] ++ hl [32]).
Proof. intros hl ps. rewrite <- (app_nil_r (hl [32])). reflexivity. Qed.

(** The hypotheses are met by real histories. *)
Example C305_case : let v := vapply_all every [VPlaceholder [63]; VBase (IFocus true); VBase (ISetContent [97; 98; 99; 100; 101] 4)] (new_ivw 3) in
  ivalid every (base v) /\ ascii (content (base v)) /\ view every (fun s => [91] ++ s ++ [93]) (fun s => s) v = Some [99; 100; 91; 101; 93].
Proof. split; [apply vapply_valid, new_ivalid|]. split; [|reflexivity]. repeat constructor; lia. Qed.
Example C305_case_placeholder : view every (fun s => s) (fun s => [40] ++ s ++ [41]) (vapply_all every [VPlaceholder [63]] (new_ivw 3)) = Some [40; 63; 41].
Proof. reflexivity. Qed.

Print Assumptions C305_total. Print Assumptions C305_placeholder_shown. Print Assumptions C305_last_placeholder_shown. Print Assumptions C305_last_show_cursor.
Print Assumptions C305_placeholder_hidden. Print Assumptions C305_plain_text. Print Assumptions C305_cursor_marked. Print Assumptions C306_fits_width.
Print Assumptions C307_width_exceeded_refuted.
