(** C338, C339: components draw in the colours of their theme. Models: ThModel (over InViewModel, LsModel, SyModel). *)
From Verif Require Import Prelude Utf8 Text TermEmu KeysModel LsModel LsSpec LsProofs LsProps LsViewProps.
From Verif Require Import InModel InSpec InProofs InViewModel InViewProps SyModel SySpec SyProofs ThModel.
From Verif Require SyRenderProps.
From Coq Require String Ascii. Import String.StringSyntax.

(** ** Specification *)
(** The palette's entries by name (a theme lists its colours in the order Primary, Secondary, Background, Surface, Text, TextMuted,
    Error, Warning, Success, Info, Border, Focus, Disabled; of its typography the placeholder's colour comes first). *)
Definition paints (t : SyModel.theme) (bg muted info focus plh : SyModel.color) : Prop :=
  (exists a b d e f g h i j, SyModel.tcolors t = [a; b; bg; d; e; muted; f; g; h; info; i; focus; j]) /\ exists k l m, SyModel.ttypo t = [plh; k; l; m].
(** Every theme has all of them, and a colour's components are bytes. *)
Definition proper (t : SyModel.theme) : Prop :=
  SyModel.theme_ok t /\ Forall color_ok (SyModel.tcolors t) /\ Forall color_ok (SyModel.ttypo t).
Definition ink (c : SyModel.color) : tcolor := TermEmu.Rgb (cr c) (cg c) (cb c).
Definition pen_of (f b : option tcolor) : pen := Pen f b false false false false false false false false.
(** The theme in force: the last one given, and the default theme if there was none or it was nil. *)
Fixpoint last_theme (os : list (option (option SyModel.theme))) (t : option SyModel.theme) : option SyModel.theme :=
  match os with [] => t | Some t :: r => last_theme r t | None :: r => last_theme r t end.
Definition in_force (os : list (option (option SyModel.theme))) : SyModel.theme :=
  match last_theme os None with Some t => t | None => SyModel.default_theme end.
Definition input_themes (os : list tiop) := map (fun o => match o with ITheme t => Some t | IOp _ => None end) os.
Definition list_themes {A} (os : list (tlop A)) := map (fun o => match o with LTheme t => Some t | LOp _ => None end) os.
Definition proper_themes (os : list (option (option SyModel.theme))) : Prop := forall t, In (Some (Some t)) os -> proper t.
Fixpoint codes (s : String.string) : list Z := match s with String.EmptyString => [] | String.String a r => Z.of_nat (Ascii.nat_of_ascii a) :: codes r end.
Open Scope string_scope.
Definition no_matches := codes "(no matches)".
Definition empty_list := codes "(empty list)".
Definition filter_active := codes "Filter: (active)".
Close Scope string_scope.

Lemma default_proper : proper SyModel.default_theme.
Proof. split; [repeat split|]. split; vm_compute; repeat (apply Forall_cons; [repeat split; discriminate|]); apply Forall_nil. Qed.
Lemma last_theme_proper os : proper_themes os -> forall t0, (forall t, t0 = Some t -> proper t) -> forall t, last_theme os t0 = Some t -> proper t.
Proof.
  induction os as [|[t'|] os IH]; intros P t0 P0 t H; [now apply P0| |]; cbn [last_theme] in H; eapply IH; [| | exact H | | | exact H]; try (intros x Hx; apply P; now right); auto.
  intros x ->. apply P. now left.
Qed.
Lemma in_force_proper os : proper_themes os -> proper (in_force os).
Proof. intros P. unfold in_force. destruct (last_theme os None) as [t|] eqn:E; [|exact default_proper]. eapply last_theme_proper; eauto. intros x Hx. discriminate. Qed.

Lemma paints_pal t b m i f p : paints t b m i f p -> nth 2 (SyModel.tcolors t) black = b /\ nth 5 (SyModel.tcolors t) black = m /\ nth 9 (SyModel.tcolors t) black = i /\ nth 11 (SyModel.tcolors t) black = f /\ nth 0 (SyModel.ttypo t) black = p.
Proof. intros [(a & b0 & d & e & f0 & g & h & i0 & j & E) (k & l & m0 & E2)]. rewrite E, E2. repeat split. Qed.
Lemma proper_paints t : proper t -> exists b m i f p, paints t b m i f p /\ color_ok b /\ color_ok m /\ color_ok i /\ color_ok f /\ color_ok p.
Proof.
  intros ((L1 & _ & _ & L2) & F1 & F2).
  destruct (SyModel.tcolors t) as [|c1 [|c2 [|c3 [|c4 [|c5 [|c6 [|c7 [|c8 [|c9 [|c10 [|c11 [|c12 [|c13 [|? ?]]]]]]]]]]]]]] eqn:E1; try discriminate L1.
  destruct (SyModel.ttypo t) as [|p1 [|p2 [|p3 [|p4 [|? ?]]]]] eqn:E2; try discriminate L2.
  exists c3, c6, c10, c12, p1. split. { split; [rewrite E1; eauto 15|rewrite E2; eauto]. }
  rewrite Forall_forall in F1, F2. split; [apply F1; cbn; tauto|]. split; [apply F1; cbn; tauto|]. split; [apply F1; cbn; tauto|]. split; [apply F1; cbn; tauto|]. apply F2; cbn; tauto.
Qed.
Lemma paints_ok t b m i f p : proper t -> paints t b m i f p -> color_ok b /\ color_ok m /\ color_ok i /\ color_ok f /\ color_ok p.
Proof.
  intros P H. destruct (proper_paints t P) as (b' & m' & i' & f' & p' & H' & K). apply paints_pal in H as (<- & <- & <- & <- & <-). apply paints_pal in H' as (-> & -> & -> & -> & ->). exact K.
Qed.

(* a text in one or two colours *)
Lemma colored_text sw fg0 bg0 s : ~ In 27 s -> (forall c, fg0 = Some c -> color_ok c) -> (forall c, bg0 = Some c -> color_ok c) ->
  let st := SyModel.Style fg0 bg0 None None false false false false None None None None false false false false TrueColor in
  obs Ground pen0 (SyModel.render sw st s) = (paint (pen_of (option_map ink fg0) (option_map ink bg0)) s, (Ground, pen0)).
Proof.
  intros N F B st. change (SyModel.render sw st s) with (apply_deco st (apply_colors st s)).
  apply obs_wrap.
  - split; [exact F|]. split; [exact B|]. intros c Hc. discriminate.
  - left. rewrite obs_text by exact N. destruct fg0, bg0; reflexivity.
Qed.

(** ** C338: the text input *)
Section Input.
Variable sw : list Z -> Z.
Variable brk : list Z -> Z -> bool.

Lemma tisteps_theme os : forall i, itheme (tisteps brk os i) = last_theme (input_themes os) (itheme i).
Proof using. induction os as [|[o|t] os IH]; intros i; [reflexivity| |]; unfold tisteps in *; cbn [fold_left]; rewrite IH; reflexivity. Qed.
Fixpoint plain_ops (os : list tiop) : list vop := match os with [] => [] | IOp o :: r => o :: plain_ops r | ITheme _ :: r => plain_ops r end.
Lemma tisteps_field os : forall i, field (tisteps brk os i) = vapply_all brk (plain_ops os) (field i).
Proof using. induction os as [|[o|t] os IH]; intros i; [reflexivity| |]; unfold tisteps in *; cbn [fold_left plain_ops]; rewrite IH; reflexivity. Qed.

(** A theme changes how the input looks and nothing else. *)
Theorem C338_only_colours : forall w os, field (tisteps brk os (new_tinput w)) = vapply_all brk (plain_ops os) (new_ivw w).
Proof. intros w os. apply tisteps_field. Qed.
End Input.

(** With focus and the cursor on, the terminal shows the window of the text in its default look, except for the character at the
    cursor (a blank behind the text): it has the theme's Focus colour as background and the theme's Background colour as foreground. *)
Theorem C338_cursor_colours : forall sw w os, let i := tisteps every os (new_tinput w) in let t := in_force (input_themes os) in
  proper_themes (input_themes os) -> Forall (fun c => 32 <= c < 127) (content (base (field i))) -> focused (base (field i)) = true -> show (field i) = true ->
  forall bg muted info focus plh, paints t bg muted info focus plh ->
  exists x b a c y out, input_view sw every i = Some out /\
    shows out (paint pen0 b ++ paint (pen_of (Some (ink bg)) (Some (ink focus))) (match a with [] => [32] | _ => a end) ++ paint pen0 c) pen0 /\
    firstn (cursor (base (field i))) (content (base (field i))) = x ++ b /\ skipn (cursor (base (field i))) (content (base (field i))) = a ++ c ++ y /\
    (length a <= 1)%nat /\ (a = [] -> skipn (cursor (base (field i))) (content (base (field i))) = []).
Proof.
  intros sw w os i t PT PR Hf Hs bg muted info focus plh HP.
  assert (V : ivalid every (base (field i))) by (unfold i; rewrite tisteps_field; apply vapply_valid, new_ivalid).
  assert (As : ascii (content (base (field i)))) by (eapply Forall_impl; [|exact PR]; cbn; intros; lia).
  destruct (C305_cursor_marked (cursor_look sw (itheme i)) (placeholder_look sw (itheme i)) (field i) V As Hf Hs) as (x & b & a & c & y & E & E1 & E2 & E3 & E4).
  exists x, b, a, c, y. eexists. split; [exact E|]. split; [|auto].
  assert (NE : forall l m n, content (base (field i)) = l ++ m ++ n -> ~ In 27 m).
  { intros l m n Hc Hin. rewrite Forall_forall in PR. specialize (PR 27). rewrite Hc, !in_app_iff in PR. assert (32 <= 27 < 127) by (apply PR; tauto). lia. }
  pose proof (firstn_skipn (cursor (base (field i))) (content (base (field i)))) as FS. rewrite E1, E2 in FS.
  assert (Nb : ~ In 27 b) by (apply (NE x b (a ++ c ++ y)); rewrite <- FS, <- !app_assoc; reflexivity).
  assert (Na : ~ In 27 a) by (apply (NE (x ++ b) a (c ++ y)); rewrite <- FS, <- !app_assoc; reflexivity).
  assert (Nc : ~ In 27 c) by (apply (NE (x ++ b ++ a) c y); rewrite <- FS, <- !app_assoc; reflexivity).
  unfold shows. rewrite obs_app, (obs_text pen0 b Nb). rewrite obs_app.
  assert (Th : theme_used (itheme i) = t) by (unfold i, t, in_force, theme_used; rewrite tisteps_theme; reflexivity).
  unfold cursor_look, palette. rewrite Th. destruct (paints_pal _ _ _ _ _ _ HP) as (-> & _ & _ & -> & _).
  destruct (paints_ok _ _ _ _ _ _ (in_force_proper _ PT) HP) as (Cb & _ & _ & Cf & _).
  change (SyModel.styled _) with (SyModel.Style (Some bg) (Some focus) None None false false false false None None None None false false false false TrueColor).
  rewrite colored_text.
  - cbn [option_map]. rewrite (obs_text pen0 c Nc). reflexivity.
  - destruct a; [cbn; lia|exact Na].
  - intros k Hk. apply some_inj in Hk. now subst k.
  - intros k Hk. apply some_inj in Hk. now subst k.
Qed.
(** Without focus and without text the placeholder is shown in the theme's placeholder colour. *)
Theorem C338_placeholder_colour : forall sw brk w os, let i := tisteps brk os (new_tinput w) in let t := in_force (input_themes os) in
  proper_themes (input_themes os) -> content (base (field i)) = [] -> focused (base (field i)) = false -> ph (field i) <> [] -> ~ In 27 (ph (field i)) ->
  forall bg muted info focus plh, paints t bg muted info focus plh ->
  exists out, input_view sw brk i = Some out /\ shows out (paint (pen_of (Some (ink plh)) None) (ph (field i))) pen0.
Proof.
  intros sw brk w os i t PT Hc Hf Hp Np bg muted info focus plh HP. eexists. split; [apply C305_placeholder_shown; auto|].
  assert (Th : theme_used (itheme i) = t) by (unfold i, t, in_force, theme_used; rewrite tisteps_theme; reflexivity).
  unfold placeholder_look. rewrite Th. destruct (paints_pal _ _ _ _ _ _ HP) as (_ & _ & _ & _ & ->).
  destruct (paints_ok _ _ _ _ _ _ (in_force_proper _ PT) HP) as (_ & _ & _ & _ & Cp). unfold shows.
  change (SyModel.styled _) with (SyModel.Style (Some plh) None None None false false false false None None None None false false false false TrueColor).
  rewrite colored_text; [reflexivity|exact Np| |intros k Hk; discriminate]. intros k Hk. apply some_inj in Hk. now subst k.
Qed.
(** Without a call of Theme it is the default theme: the cursor is black on blue (96, 165, 250), the placeholder grey (107, 114, 128),
    the list's muted texts (156, 163, 175) and its status (59, 130, 246). *)
Theorem C338_default_colours : paints (in_force []) (SyModel.Rgb 0 0 0) (SyModel.Rgb 156 163 175) (SyModel.Rgb 59 130 246) (SyModel.Rgb 96 165 250) (SyModel.Rgb 107 114 128).
Proof. split; [repeat eexists; reflexivity|repeat eexists; reflexivity]. Qed.
Example C338_case : let os := [IOp (VBase (IFocus true)); IOp (VBase (IKeyOp (IKey false 97 IRune))); ITheme (Some SyModel.light_theme); IOp (VBase (IKeyOp (IKey false 0 ILeft)))] in
  let i := tisteps every os (new_tinput 10) in
  proper_themes (input_themes os) /\ content (base (field i)) = [97] /\ cursor (base (field i)) = 0%nat /\ focused (base (field i)) = true /\ show (field i) = true /\
  paints (in_force (input_themes os)) (SyModel.Rgb 255 255 255) (SyModel.Rgb 107 114 128) (SyModel.Rgb 37 99 235) (SyModel.Rgb 59 130 246) (SyModel.Rgb 156 163 175).
Proof.
  cbv zeta. split; [|split; [reflexivity|split; [reflexivity|split; [reflexivity|split; [reflexivity|split; repeat eexists; reflexivity]]]]].
  intros t [H|[H|[H|[H|[]]]]]; try discriminate. injection H as <-. split; [repeat split|]. split; vm_compute; repeat (apply Forall_cons; [repeat split; discriminate|]); apply Forall_nil.
Qed.

(** ** C339: the list *)
Section List_.
Context {A : Type}.
Variable dflt : A -> list Z -> bool.
Variable rend : A -> Z -> bool -> bool -> list Z.
Fixpoint list_ops (os : list (tlop A)) : list (lop A) := match os with [] => [] | LOp o :: r => o :: list_ops r | LTheme _ :: r => list_ops r end.
Lemma tlsteps_base os : forall l : tlist A, base_list (tlsteps os l) = lsteps (list_ops os) (base_list l).
Proof using. induction os as [|[o|t] os IH]; intros l; [reflexivity| |]; unfold tlsteps in *; cbn [fold_left list_ops]; rewrite IH; reflexivity. Qed.
Lemma tlsteps_theme os : forall l : tlist A, ltheme (tlsteps os l) = last_theme (list_themes os) (ltheme l).
Proof using. induction os as [|[o|t] os IH]; intros l; [reflexivity| |]; unfold tlsteps in *; cbn [fold_left]; rewrite IH; reflexivity. Qed.

(** A list shows "(no matches)" or "(empty list)" in the theme's TextMuted colour in place of its rows when there is nothing to show, and
    "Filter: (active)" in the theme's Info colour on a last line while the filter is shown and has text; the rows are as the renderer
    drew them. *)
Theorem C339_list_colours : forall sw its one os, let l := tlsteps os (new_tlist dflt its one) in let t := in_force (list_themes os) in
  sane_run (new_ui dflt its one) (list_ops os) -> proper_themes (list_themes os) -> (forall a i s f, ~ In 27 (rend a i s f)) ->
  forall bg muted info focus plh, paints t bg muted info focus plh ->
  exists out body, list_view sw rend l = Some out /\
    shows out (body ++ if show_filter (base_list l) && negb (list_eqb (query (dom (base_list l))) [])
                       then (10, pen0) :: paint (pen_of (Some (ink info)) None) filter_active else []) pen0 /\
    match shown (dom (base_list l)) with
    | [] => body = paint (pen_of (Some (ink muted)) None) (match query (dom (base_list l)) with [] => empty_list | _ => no_matches end)
    | _ => exists rs, render_visible rend (dom (base_list l)) = Some rs /\ body = paint pen0 (join_nl (map (fun r => match r with Some s => s | None => [] end) rs))
    end.
Proof.
  intros sw its one os l t S PT NR bg muted info focus plh HP.
  assert (B : base_list l = lsteps (list_ops os) (new_ui dflt its one)) by (unfold l; rewrite tlsteps_base; reflexivity).
  assert (Th : theme_used (ltheme l) = t) by (unfold l, t, in_force, theme_used; rewrite tlsteps_theme; reflexivity).
  destruct (C31_view_rows dflt its one (list_ops os) (list Z) rend S) as (rs & body & R & VR & HB). rewrite <- B in R, VR, HB.
  unfold list_view. rewrite VR. cbn [option_map].
  destruct (paints_pal _ _ _ _ _ _ HP) as (_ & P5 & P9 & _ & _).
  destruct (paints_ok _ _ _ _ _ _ (in_force_proper _ PT) HP) as (_ & Cm & Ci & _ & _).
  assert (MU : forall s, ~ In 27 s -> obs Ground pen0 (SyModel.render sw (SyModel.styled [SyModel.Foreground (palette (ltheme l) 5)]) s) = (paint (pen_of (Some (ink muted)) None) s, (Ground, pen0))).
  { intros s Ns. unfold palette. rewrite Th, P5. change (SyModel.styled _) with (SyModel.Style (Some muted) None None None false false false false None None None None false false false false TrueColor).
    apply colored_text; [exact Ns| |intros k Hk; discriminate]. intros k Hk. apply some_inj in Hk. now subst k. }
  assert (IN : forall s, ~ In 27 s -> obs Ground pen0 (SyModel.render sw (SyModel.styled [SyModel.Foreground (palette (ltheme l) 9)]) s) = (paint (pen_of (Some (ink info)) None) s, (Ground, pen0))).
  { intros s Ns. unfold palette. rewrite Th, P9. change (SyModel.styled _) with (SyModel.Style (Some info) None None None false false false false None None None None false false false false TrueColor).
    apply colored_text; [exact Ns| |intros k Hk; discriminate]. intros k Hk. apply some_inj in Hk. now subst k. }
  set (bodytext := join_nl (map (row_text sw (ltheme l)) body)).
  assert (HB2 : body <> [] /\ exists o, obs Ground pen0 bodytext = (o, (Ground, pen0)) /\
    match shown (dom (base_list l)) with
    | [] => o = paint (pen_of (Some (ink muted)) None) (match query (dom (base_list l)) with [] => empty_list | _ => no_matches end)
    | _ => o = paint pen0 (join_nl (map (fun r => match r with Some s => s | None => [] end) rs)) end).
  { unfold bodytext. destruct (shown (dom (base_list l))) as [|s0 sr] eqn:Sh.
    - subst body. split; [discriminate|]. cbn [map join_nl]. destruct (query (dom (base_list l))); eexists; (split; [|reflexivity]).
      + cbn [row_text]. apply MU. cbn. lia.
      + cbn [row_text]. apply MU. cbn. lia.
    - assert (Hrs : rs <> []).
      { intros ->. pose proof (lsteps_ok (list_ops os) _ (new_ok dflt its one) S) as K. rewrite <- B in K.
        destruct (C31_view_draws_the_window dflt its one (list_ops os) (list Z) rend S) as (rs' & R' & Len & _). rewrite <- B in R', Len. rewrite R in R'. apply some_inj in R'. subst rs'.
        cbn [length] in Len. rewrite Sh in Len. cbn [length] in Len. pose proof (k_h _ K). lia. }
      split; [subst body; destruct rs; [congruence|discriminate]|]. eexists. split; [|reflexivity]. subst body. rewrite map_map.
      rewrite obs_text; [reflexivity|]. cbn [row_text]. clear - R NR. intros Hin.
      assert (Q : Forall (fun r => ~ In 27 r) (map (fun x : option (list Z) => match x with Some s => s | None => [] end) rs)).
      { apply Forall_forall. intros r Hr. apply in_map_iff in Hr as (o & <- & Ho). destruct o as [r|]; [|cbn; tauto].
        unfold render_visible in R. destruct (count _ =? 0); [apply some_inj in R; subst rs; destruct Ho|]. cbv zeta in R. destruct (_ <? 0); [discriminate|]. apply some_inj in R. subst rs.
        apply in_map_iff in Ho as (k & Hk & _). unfold render_item in Hk. destruct (_ || _); [discriminate|]. destruct (at_ _ _); [|discriminate]. apply some_inj in Hk. subst r. apply NR. }
      revert Hin. generalize dependent (map (fun x : option (list Z) => match x with Some s => s | None => [] end) rs). intros q Q. clear - Q.
      induction Q as [|r q Hr Q IH]; [cbn; tauto|]. destruct q as [|r2 q]; [exact Hr|]. change (join_nl (r :: r2 :: q)) with (r ++ 10 :: join_nl (r2 :: q)). rewrite in_app_iff. cbn [In]. intros [H|[H|H]]; [tauto|lia|tauto]. }
  destruct HB2 as (NB & o & HO & HM). exists (join_nl (map (row_text sw (ltheme l)) (body ++ if show_filter (base_list l) && negb (list_eqb (query (dom (base_list l))) []) then [RFilterActive] else []))), o.
  split; [reflexivity|]. split.
  - unfold shows. destruct (_ && _).
    + rewrite map_app. cbn [map].
      assert (J : forall (xs : list (list Z)) z, xs <> [] -> join_nl (xs ++ [z]) = join_nl xs ++ 10 :: z).
      { clear. induction xs as [|x xs IH]; intros z H; [congruence|]. destruct xs as [|x2 xs]; [reflexivity|].
        change ((x :: x2 :: xs) ++ [z]) with (x :: ((x2 :: xs) ++ [z])). change (join_nl (x :: (x2 :: xs) ++ [z])) with (x ++ 10 :: join_nl ((x2 :: xs) ++ [z])).
        rewrite IH by discriminate. change (join_nl (x :: x2 :: xs)) with (x ++ 10 :: join_nl (x2 :: xs)). rewrite <- app_assoc. reflexivity. }
      rewrite J by (destruct body; [congruence|discriminate]). fold bodytext. rewrite obs_app, HO.
      change (row_text sw (ltheme l) RFilterActive) with (SyModel.render sw (SyModel.styled [SyModel.Foreground (palette (ltheme l) 9)]) filter_active).
      cbn [obs Z.eqb Pos.eqb]. rewrite IN by (cbn; lia). reflexivity.
    + rewrite app_nil_r. fold bodytext. rewrite HO, app_nil_r. reflexivity.
  - destruct (shown (dom (base_list l))); [exact HM|]. exists rs. auto.
Qed.
End List_.
Example C339_case : let os := [LOp (OShow true); LOp (OKey (rune_key 122)); LTheme (Some SyModel.dark_theme)] in
  sane_run (new_ui (fun c q => match q with [] => true | x :: _ => c =? x end) [97; 98] true) (list_ops os) /\ proper_themes (list_themes os) /\
  shown (dom (base_list (tlsteps os (new_tlist (fun c q => match q with [] => true | x :: _ => c =? x end) [97; 98] true)))) = [].
Proof.
  cbv zeta. split; [repeat constructor|]. split; [|reflexivity].
  intros t [H|[H|[H|[]]]]; try discriminate. injection H as <-. split; [repeat split|]. split; vm_compute; repeat (apply Forall_cons; [repeat split; discriminate|]); apply Forall_nil.
Qed.

Print Assumptions C338_only_colours. Print Assumptions C338_cursor_colours. Print Assumptions C338_placeholder_colour. Print Assumptions C338_default_colours.
Print Assumptions C339_list_colours.
