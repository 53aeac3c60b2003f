(** More about styles: what a setter leaves alone, colours near grey, border codes. *)
From Verif Require Import Prelude Utf8 Text TermEmu SyModel SySpec SyColorProps SyProofs SyTextProps SyRenderProps SyThemeProps.

(* ---------- C114 ---------- *)
(** The value of each attribute of a style. *)
Inductive aval := VColor (c : option color) | VBorder (b : option border) | VBool (b : bool) | VZ (z : Z) | VOZ (z : option Z) | VH (h : halign) | VV (v : valign) | VCap (k : cap).
Definition value (s : style) (a : attr) : aval :=
  match a with
  | AFg => VColor (fg s) | ABg => VColor (bg s) | ABorder => VBorder (bord s) | ABc => VColor (bcolor s)
  | AT => VBool (sTop s) | AB => VBool (sBottom s) | AL => VBool (sLeft s) | AR => VBool (sRight s)
  | APt => VZ (top (sp0 (pad s))) | APr => VZ (right (sp0 (pad s))) | APb => VZ (bottom (sp0 (pad s))) | APl => VZ (left (sp0 (pad s)))
  | AMt => VZ (top (sp0 (marg s))) | AMr => VZ (right (sp0 (marg s))) | AMb => VZ (bottom (sp0 (marg s))) | AMl => VZ (left (sp0 (marg s)))
  | AW => VOZ (width (sz0 (ssize s))) | AH => VOZ (height (sz0 (ssize s))) | AMinW => VOZ (minW (sz0 (ssize s))) | AMaxW => VOZ (maxW (sz0 (ssize s))) | AMinH => VOZ (minH (sz0 (ssize s))) | AMaxH => VOZ (maxH (sz0 (ssize s)))
  | AHa => VH (match salign s with Some (h, _) => h | None => HLeft end) | AVa => VV (match salign s with Some (_, v) => v | None => VTop end)
  | ABold => VBool (bold s) | AIt => VBool (italic s) | AUn => VBool (underline s) | ASt => VBool (strike s) | ACap => VCap (scap s)
  end.
(** A setter leaves every attribute alone that it is not about. *)
Theorem C114_keeps : forall os o a, let s := styled os in ~ In a (sets o) -> value (step s o) a = value s a.
Proof.
  intros os o a s N. pose proof (C114_never_negative os) as ((P1 & P2 & P3 & P4) & (M1 & M2 & M3 & M4) & _). fold s in P1, P2, P3, P4, M1, M2, M3, M4. clearbody s.
  destruct o, a; try (exfalso; apply N; cbn [sets In]; tauto); try reflexivity;
  cbn [step with_pad with_marg with_align value pad marg salign sp0 new_spacing top right bottom left]; try (f_equal; lia); destruct (salign s) as [[? ?]|]; reflexivity.
Qed.
(** Choosing a border shows all its sides unless some were switched on before. *)
Theorem C114_border : forall s b, let s' := step s (Border b) in bord s' = Some b /\
  (sTop s = false -> sBottom s = false -> sLeft s = false -> sRight s = false -> sTop s' = true /\ sBottom s' = true /\ sLeft s' = true /\ sRight s' = true) /\
  (sTop s = true \/ sBottom s = true \/ sLeft s = true \/ sRight s = true -> sTop s' = sTop s /\ sBottom s' = sBottom s /\ sLeft s' = sLeft s /\ sRight s' = sRight s).
Proof.
  intros s b. cbv zeta. cbn [step bord sTop sBottom sLeft sRight]. split; [reflexivity|]. split; [intros -> -> -> ->; repeat split; reflexivity|].
  destruct (sTop s), (sBottom s), (sLeft s), (sRight s); intros [H|[H|[H|H]]]; try discriminate H; repeat split; reflexivity.
Qed.
(** A new style has nothing set. *)
Theorem C114_new : forall a, value (styled []) a = match a with
  | AFg | ABg | ABc => VColor None | ABorder => VBorder None | AT | AB | AL | AR | ABold | AIt | AUn | ASt => VBool false
  | APt | APr | APb | APl | AMt | AMr | AMb | AMl => VZ 0 | AW | AH | AMinW | AMaxW | AMinH | AMaxH => VOZ None | AHa => VH HLeft | AVa => VV VTop | ACap => VCap TrueColor end.
Proof. intros a. destruct a; reflexivity. Qed.
(* ---------- C192 ---------- *)
(** A colour whose channels are all within 10 of their mean is shown as a grey within 16 of that mean (within 9 below it between the
    ends of the ramp). *)
Theorem C192_near_grey : forall c, color_ok c -> let m := (cr c + cg c + cb c) / 3 in Z.abs (cr c - m) <= 10 -> Z.abs (cg c - m) <= 10 -> Z.abs (cb c - m) <= 10 ->
  exists g, from256 (to256 c) = Rgb g g g /\ Z.abs (m - g) <= 16 /\ (8 <= m <= 238 -> 0 <= m - g <= 9).
Proof.
  intros c (C1 & C2 & C3) m H1 H2 H3. assert (M : 0 <= m <= 255) by (subst m; lia). unfold to256, grayish. fold m. replace ((Z.abs (cr c - m) <=? 10) && (Z.abs (cg c - m) <=? 10) && (Z.abs (cb c - m) <=? 10)) with true by lia. cbv zeta. clearbody m. clear H1 H2 H3.
  destruct (m <? 8) eqn:E1; [exists 0; split; [reflexivity|lia]|]. destruct (238 <? m) eqn:E2; [exists 255; split; [reflexivity|lia]|].
  exists (8 + ((m - 8) / 10 + 232 - 232) * 10). unfold from256. replace ((m - 8) / 10 + 232 <? 16) with false by lia. replace ((m - 8) / 10 + 232 <=? 231) with false by lia. split; [reflexivity|lia].
Qed.
(** The 256-colour code of a border: of a grey the ramp (or black, white), else the cube entry whose level number is a sixth of the
    channel, rounded down; the sixteen colours: bright exactly if the mean is above 128. *)
Theorem C192_border_codes : forall c, color_ok c ->
  (cr c = cg c -> cg c = cb c -> (cr c < 8 -> border256 c = 16) /\ (247 < cr c -> border256 c = 231) /\ (8 <= cr c <= 247 -> 0 <= cr c - (8 + 10 * (border256 c - 232)) <= 9)) /\
  (~ (cr c = cg c /\ cg c = cb c) -> exists r g b, border256 c = 16 + 36 * r + 6 * g + b /\ 256 * r <= 6 * cr c < 256 * (r + 1) /\ 256 * g <= 6 * cg c < 256 * (g + 1) /\ 256 * b <= 6 * cb c < 256 * (b + 1)) /\
  (8 <= border16 c <-> 128 < (cr c + cg c + cb c) / 3).
Proof.
  intros c (C1 & C2 & C3). split; [|split].
  - intros E1 E2. unfold border256. rewrite (proj2 (Z.eqb_eq _ _) E1), (proj2 (Z.eqb_eq _ _) E2). cbn [andb]. split; [|split]; intros H.
    + replace (cr c <? 8) with true by lia. reflexivity.
    + replace (cr c <? 8) with false by lia. replace (247 <? cr c) with true by lia. reflexivity.
    + replace (cr c <? 8) with false by lia. replace (247 <? cr c) with false by lia. lia.
  - intros N. unfold border256. replace ((cr c =? cg c) && (cg c =? cb c)) with false by lia. exists (cr c * 6 / 256), (cg c * 6 / 256), (cb c * 6 / 256). split; [reflexivity|]. lia.
  - unfold border16. destruct (128 <? cr c), (128 <? cg c), (128 <? cb c), (128 <? _) eqn:E; lia.
Qed.
Example C192_ex : to256 (SyModel.Rgb 100 104 108) = 241 /\ border256 (SyModel.Rgb 100 104 108) = 16 + 36 * 2 + 6 * 2 + 2 /\ color_ok (SyModel.Rgb 100 104 108).
Proof. repeat split; cbn; lia. Qed.
(* ---------- C194 ---------- *)
(** When the size bounds are missed: the text with its spacing, border and margin is narrower, wider, lower or taller than asked. *)
Definition too (lo hi : option Z) (v : Z) : Prop := (exists m, lo = Some m /\ v < m) \/ (exists m, hi = Some m /\ m < v).
Theorem C194_missed_bounds : forall sw os c, let s := styled os in let z := sz0 (ssize s) in let p := sp0 (pad s) in let m := sp0 (marg s) in
  let hb := if has s (sLeft s) || has s (sRight s) then 2 else 0 in let vb := if has s (sTop s) || has s (sBottom s) then 2 else 0 in
  forall w, (forall l, In l (lines c) -> sw l <= w) -> (exists l, In l (lines c) /\ sw l = w) -> (forall l, 0 <= sw l) ->
  (size_violated sw s c = true <-> too (minW z) (maxW z) (left m + left p + w + right p + right m + hb) \/ too (minH z) (maxH z) (top m + top p + Z.of_nat (length (lines c)) + bottom p + bottom m + vb)) /\
  (size_violated sw s c = true -> render sw s c = c).
Proof.
  intros sw os c s z p m hb vb w W1 W2 POS. assert (MX : max_of sw (split_nl c) = w) by (apply max_unique; auto; split; auto).
  split; [|intros H; unfold render, execute; rewrite H; destruct (negb (valid s)); reflexivity].
  assert (B : forall lo hi v, below lo hi v = true <-> too lo hi v).
  { intros lo hi v. unfold below, too. rewrite orb_true_iff. split.
    - intros [H|H]; [left; destruct lo as [x|]; [|discriminate]; exists x; split; [reflexivity|lia]|right; destruct hi as [x|]; [|discriminate]; exists x; split; [reflexivity|lia]].
    - intros [(x & -> & H)|(x & -> & H)]; [left|right]; lia. }
  unfold size_violated. subst z. destruct (ssize s) as [z|]; cbn [sz0].
  - unfold outer_size. rewrite MX. fold p m hb vb. rewrite orb_true_iff, !B.
    replace (w + (left p + right p) + hb + (left m + right m)) with (left m + left p + w + right p + right m + hb) by lia.
    replace (Z.of_nat (length (split_nl c)) + (top p + bottom p) + vb + (top m + bottom m)) with (top m + top p + Z.of_nat (length (split_nl c)) + bottom p + bottom m + vb) by lia. reflexivity.
  - split; [discriminate|]. cbn [minW maxW minH maxH]. intros [[(x & Q & _)|(x & Q & _)]|[(x & Q & _)|(x & Q & _)]]; discriminate Q.
Qed.

(* ---------- C192: the palette ---------- *)
(** The xterm palette: the sixteen system colours by their bits, the colour cube with the levels 0, 95, 135, ... and the grey ramp. *)
Theorem C192_standard : forall code, 0 <= code <= 255 ->
  (code <= 6 -> from256 code = Rgb (if Z.odd code then 128 else 0) (if Z.odd (code / 2) then 128 else 0) (if Z.odd (code / 4) then 128 else 0)) /\
  (code = 7 -> from256 code = Rgb 192 192 192) /\ (code = 8 -> from256 code = Rgb 128 128 128) /\
  (9 <= code <= 15 -> from256 code = Rgb (if Z.odd code then 255 else 0) (if Z.odd (code / 2) then 255 else 0) (if Z.odd (code / 4) then 255 else 0)) /\
  (forall r g b, 0 <= r <= 5 -> 0 <= g <= 5 -> 0 <= b <= 5 -> code = 16 + 36 * r + 6 * g + b ->
     let lv d := if d =? 0 then 0 else 55 + 40 * d in from256 code = Rgb (lv r) (lv g) (lv b)) /\
  (232 <= code -> let v := 10 * (code - 232) + 8 in from256 code = Rgb v v v).
Proof.
  intros code C. repeat split.
  - intros L. assert (X : code = 0 \/ code = 1 \/ code = 2 \/ code = 3 \/ code = 4 \/ code = 5 \/ code = 6) by lia. destruct X as [-> |[-> |[-> |[-> |[-> |[-> | ->]]]]]]; reflexivity.
  - intros ->. reflexivity.
  - intros ->. reflexivity.
  - intros L. assert (X : code = 9 \/ code = 10 \/ code = 11 \/ code = 12 \/ code = 13 \/ code = 14 \/ code = 15) by lia. destruct X as [-> |[-> |[-> |[-> |[-> |[-> | ->]]]]]]; reflexivity.
  - intros r g b R G B ->. cbv zeta. unfold from256. replace (16 + 36 * r + 6 * g + b <? 16) with false by lia. replace (16 + 36 * r + 6 * g + b <=? 231) with true by lia. cbv zeta.
    replace ((16 + 36 * r + 6 * g + b - 16) / 36 mod 6) with r by (Z.div_mod_to_equations; lia). replace ((16 + 36 * r + 6 * g + b - 16) / 6 mod 6) with g by (Z.div_mod_to_equations; lia). replace ((16 + 36 * r + 6 * g + b - 16) mod 6) with b by (Z.div_mod_to_equations; lia).
    assert (LV : forall d, 0 <= d <= 5 -> level d = if d =? 0 then 0 else 55 + 40 * d).
    { intros d D. assert (X : d = 0 \/ d = 1 \/ d = 2 \/ d = 3 \/ d = 4 \/ d = 5) by lia. destruct X as [-> |[-> |[-> |[-> |[-> | ->]]]]]; reflexivity. }
    rewrite !LV by auto. reflexivity.
  - intros L. cbv zeta. unfold from256. replace (code <? 16) with false by lia. replace (code <=? 231) with false by lia. cbv zeta. f_equal; lia.
Qed.
Example C192_standard_met : from256 208 = Rgb 255 135 0 /\ 208 = 16 + 36 * 5 + 6 * 2 + 0. Proof. split; reflexivity. Qed.

(* ---------- C114: validation ---------- *)
(** A style is reported as invalid exactly when a side of the border is switched on and no border is set. *)
Theorem C114_validate : forall s, valid s = false <-> bord s = None /\ (sTop s = true \/ sBottom s = true \/ sLeft s = true \/ sRight s = true).
Proof. intros s. unfold valid. destruct (bord s), (sTop s), (sBottom s), (sLeft s), (sRight s); cbn; intuition discriminate. Qed.
Example C114_validate_met : valid (styled [BorderRight true]) = false /\ valid (styled [Border rounded]) = true. Proof. split; reflexivity. Qed.

(* ---------- C117: the manager's calls ---------- *)
(** A manager made without a theme starts with the default one, and Reset goes back to it; SetTheme hands back the theme it replaces and
    ignores nil; MergeTheme lays the argument over the current theme: its name, its set fields, the current theme's other fields. *)
Theorem C117_calls : forall cur,
  new_manager None = default_theme /\ new_manager (Some cur) = cur /\ manage cur ResetTheme = (default_theme, RNone) /\ manage cur Current = (cur, RTheme cur) /\ manage cur (SetTheme None) = (cur, RTheme cur) /\
  (forall t, manage cur (SetTheme (Some t)) = (t, RTheme cur)) /\
  (forall o, theme_ok cur -> theme_ok o -> let m := fst (manage cur (MergeTheme o)) in tname m = tname o /\
     (forall i c, nth_error (tcolors o) i = Some c -> nth_error (tcolors m) i = if ceq c black then nth_error (tcolors cur) i else Some c) /\
     (forall i v, nth_error (tspacing o) i = Some v -> nth_error (tspacing m) i = if 0 <? v then Some v else nth_error (tspacing cur) i)).
Proof.
  intros cur. do 6 (split; [reflexivity|]). intros o T O m. subst m. destruct (C115_merge cur o T O) as (_ & A & B & _ & D & _). cbn [manage fst]. auto.
Qed.
(** The names and the palettes of the presets: each keeps its text readable, the lightness of text and background far apart. *)
Definition lightness (c : color) : Z := cr c + cg c + cb c.
Theorem C117_preset_contrast : forall t, In t presets -> theme_ok t /\ exists bg fg, nth_error (tcolors t) 2 = Some bg /\ nth_error (tcolors t) 4 = Some fg /\ 600 <= Z.abs (lightness fg - lightness bg).
Proof. intros t I. destruct I as [<-|[<-|[<-|[<-|[]]]]]; (split; [repeat split|]); eexists; eexists; (split; [reflexivity|]); (split; [reflexivity|]); unfold lightness; cbn; lia. Qed.

Print Assumptions C114_keeps. Print Assumptions C114_border. Print Assumptions C114_new. Print Assumptions C192_near_grey.
Print Assumptions C192_border_codes. Print Assumptions C194_missed_bounds. Print Assumptions C192_standard. Print Assumptions C114_validate.
Print Assumptions C117_calls. Print Assumptions C117_preset_contrast.
