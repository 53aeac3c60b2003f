(** Rendering styled text: sizes, colours, borders, setters. *)
From Verif Require Import Prelude Utf8 Text TermEmu SyModel SySpec SyColorProps SyProofs SyTextProps.
From Verif Require LyProofs.

(* ---------- C108 ---------- *)
(** Without an alignment, Width and Height have no effect at all on what is rendered. *)
Theorem C108_width_ignored_refuted : forall sw s c v, salign s = None -> render sw (step s (Width v)) c = render sw s c /\ render sw (step s (Height v)) c = render sw s c.
Proof.
  intros sw s c v A. unfold render, execute, size_violated, laid_out, apply_align, render_border, border_lines, color_line, color_sides, outer_size, apply_colors, apply_deco, valid, has, with_size.
  cbn [step with_size fg bg bord bcolor sTop sBottom sLeft sRight pad marg ssize salign bold italic underline strike scap]. rewrite A. destruct (ssize s) as [z|]; cbn [sz0 width height minW maxW minH maxH]; split; reflexivity.
Qed.
(** With an alignment and only a width, a text of several lines is treated as one long line: its lines keep their own widths. *)
Theorem C108_several_lines_refuted : lines (render len (styled [Width 6; AlignHorizontal HLeft]) [97; 10; 98]) = [[97]; [98; 32; 32; 32]].
Proof. reflexivity. Qed.
(** With an alignment, a positive width and height and nothing around the text, the result is exactly that large. *)
Theorem C51_rendered_size : forall (sw : list Z -> Z) (thin : Z -> Prop) s t w h a, (forall x, 0 <= sw x) -> thin 32 -> sw [] = 0 -> additive sw thin [] ->
  salign s = Some a -> target (ssize s) = (w, h) -> 0 < w -> 0 < h -> pad s = None -> bord s = None -> marg s = None ->
  (forall l, In l (lines t) -> additive sw thin l /\ alignable sw w l) ->
  Z.of_nat (length (lines (laid_out sw s t))) = h /\ forall l, In l (lines (laid_out sw s t)) -> sw l = w.
Proof.
  intros sw thin s t w h [ha va] POS SP EM ADD0 A T W H P B M AL. unfold laid_out, apply_opt, render_border, apply_align. rewrite P, M, B, A, T. replace ((0 <? w) && (0 <? h)) with true by lia.
  destruct (C51_box sw thin t w h ha va POS SP EM ADD0 W H AL) as (R1 & R2 & _). auto.
Qed.
Example C108_met : let s := styled [Width 4; Height 2; Align HCenter VBottom; Bold true] in salign s = Some (HCenter, VBottom) /\ target (ssize s) = (4, 2) /\ pad s = None /\ bord s = None /\ marg s = None /\
  lines (laid_out len s [97; 98]) = [[32; 32; 32; 32]; [32; 97; 98; 32]].
Proof. cbv zeta. repeat (split; [reflexivity|]). reflexivity. Qed.

(* ---------- C109 ---------- *)
(** What the terminal shows: exactly the laid-out text, every character of it with the colours and decorations of the style, and the
    terminal is back at its defaults afterwards. *)
Theorem C109_shown : forall sw s c, valid s = true -> size_violated sw s c = false -> colors_ok s -> bcolor s = None ->
  (forall b, bord s = Some b -> ~ border_has b 27) -> Forall scalar c -> ~ In 27 c ->
  shows (render sw s c) (paint (style_pen s) (laid_out sw s c)) pen0.
Proof.
  intros sw s c V SV CO BC NB SC NE. unfold shows, render, execute. rewrite V, SV. cbn [negb]. apply obs_wrap; auto. left. apply obs_text. apply laid_out_low; auto; lia.
Qed.
Example C109_met : let s := styled [Foreground (SyModel.Rgb 10 20 30); Bold true; Border rounded; Padding 0 1 0 1] in
  valid s = true /\ size_violated len s [97] = false /\ colors_ok s /\ bcolor s = None /\ (forall b, bord s = Some b -> ~ border_has b 27) /\
  style_pen s = Pen (Some (TermEmu.Rgb 10 20 30)) None true false false false false false false false.
Proof.
  cbv zeta. split; [reflexivity|]. split; [reflexivity|]. split; [|split; [reflexivity|split; [|reflexivity]]].
  - split; [|split]; intros c E; cbn in E; try discriminate. apply some_inj in E. subst c. repeat split; cbn; lia.
  - intros b E. cbn in E. apply some_inj in E. subst b. unfold border_has. cbn. lia.
Qed.

(* ---------- C110 ---------- *)
(** Giving the border a colour switches off the style of the content: bold red text in a grey frame is shown as plain text. *)
Theorem C110_content_loses_style_refuted :
  let red := SyModel.Rgb 255 0 0 in let grey := SyModel.Rgb 128 128 128 in
  let s := styled [Foreground red; Bold true; Border rounded] in
  let framed := styled [Foreground red; Bold true; Border rounded; BorderColor grey] in
  (exists before after, shows (render len s [120]) (before ++ [(120, style_pen s)] ++ after) pen0) /\
  (exists before after, shows (render len framed [120]) (before ++ [(120, pen0)] ++ after) pen0) /\ style_pen s <> pen0 /\ style_pen framed = style_pen s.
Proof.
  cbv zeta. split; [|split; [|split; [discriminate|reflexivity]]].
  - match goal with |- exists _ _, shows ?r _ _ => exists (firstn 5 (fst (obs Ground pen0 r))), (skipn 6 (fst (obs Ground pen0 r))) end. unfold shows. vm_compute. reflexivity.
  - match goal with |- exists _ _, shows ?r _ _ => exists (firstn 5 (fst (obs Ground pen0 r))), (skipn 6 (fst (obs Ground pen0 r))) end. unfold shows. vm_compute. reflexivity.
Qed.
Fixpoint join_cells (ls : list (list (Z * pen))) : list (Z * pen) := match ls with [] => [] | [l] => l | l :: r => l ++ (10, pen0) :: join_cells r end.
Lemma obs_join ls cs : Forall2 (fun l c => obs Ground pen0 l = (c, (Ground, pen0))) ls cs -> obs Ground pen0 (join_nl ls) = (join_cells cs, (Ground, pen0)).
Proof.
  induction 1 as [|l c ls cs H F IH]; [reflexivity|]. destruct F as [|l2 c2 ls cs H2 F]; [exact H|].
  change (join_nl (l :: l2 :: ls)) with (l ++ 10 :: join_nl (l2 :: ls)). change (join_cells (c :: c2 :: cs)) with (c ++ (10, pen0) :: join_cells (c2 :: cs)). rewrite obs_app, H. cbn [obs Z.eqb Pos.eqb]. rewrite IH. reflexivity.
Qed.
Lemma obs_colored k bc t r : color_ok bc -> ~ In 27 t -> obs Ground pen0 (border_code k bc ++ t ++ reset ++ r) = let '(o, e) := obs Ground pen0 r in (paint (set_fg pen0 (blook k bc)) t ++ o, e).
Proof. intros C N. rewrite obs_border by auto. rewrite obs_app, obs_text by auto. rewrite obs_reset. reflexivity. Qed.
(** A plain text in a coloured frame: the frame is in the border colour, the text and its padding in the terminal's defaults. *)
Theorem C193_coloured_frame : forall sw s b bc c k, valid s = true -> size_violated sw s c = false -> colors_ok s -> scap s = k ->
  bord s = Some b -> bcolor s = Some bc -> thin_border (fun _ => True) b -> ~ border_has b 27 -> sTop s = true -> sBottom s = true -> sLeft s = true -> sRight s = true ->
  style_pen s = pen0 -> salign s = None -> pad s = None -> marg s = None -> ~ In 27 c ->
  let bp := set_fg pen0 (blook k bc) in let w := max_of sw (lines c) in
  shows (render sw s c)
    (join_cells ([paint bp (bTL b ++ concat (repeat (bTop b) (Z.to_nat w)) ++ bTR b)] ++
                 map (fun l => paint bp (bLeft b) ++ paint pen0 (l ++ blanks (Z.max 0 (w - sw l))) ++ paint bp (bRight b)) (lines c) ++
                 [paint bp (bBL b ++ concat (repeat (bBottom b) (Z.to_nat w)) ++ bBR b)])) pen0.
Proof.
  intros sw s b bc c k V SV CO K B BC TB NB S1 S2 S3 S4 SP AL P M NC bp w. unfold shows, render, execute. rewrite V, SV. cbn [negb]. apply obs_wrap; auto. rewrite SP. left.
  unfold laid_out, apply_opt, apply_align. rewrite AL, P, M. unfold render_border. rewrite B.
  assert (HA : forall v, has s v = v) by (intros v; unfold has; rewrite B; destruct v; reflexivity). rewrite !HA, S1, S2, S3, S4. cbn [negb andb].
  destruct CO as (_ & _ & CO). specialize (CO bc BC). apply obs_join. unfold border_lines. rewrite !HA, S1, S2, S3, S4. unfold side. fold w.
  assert (CR : forall x n, repeat_str x n = concat (repeat x n)) by (intros x n; induction n as [|n IH]; [reflexivity|cbn [repeat_str repeat concat]; rewrite IH; reflexivity]).
  unfold border_has in NB. rewrite !in_app_iff in NB.
  assert (NR : forall x n, ~ In 27 x -> ~ In 27 (concat (repeat x n))) by (intros x n NX I; rewrite <- CR in I; apply In_repeat_str in I; auto).
  assert (CL : forall x y z, ~ In 27 x -> ~ In 27 y -> ~ In 27 z -> obs Ground pen0 (color_line s (x ++ repeat_str y (Z.to_nat w) ++ z)) = (paint bp (x ++ concat (repeat y (Z.to_nat w)) ++ z), (Ground, pen0))).
  { intros x y z X Y Z0. unfold color_line. rewrite BC, K, CR. rewrite <- (app_nil_r reset). rewrite obs_colored; [cbn [obs]; rewrite app_nil_r; reflexivity|auto|]. intros I. repeat (apply in_app_or in I as [I|I]); auto. revert I. apply NR. auto. }
  cbn [app]. constructor; [apply CL; tauto|]. apply Forall2_app; [|constructor; [apply CL; tauto|constructor]].
  assert (SPL : forall l, In l (lines c) -> ~ In 27 l) by (intros l L I; apply NC; eapply In_split; eauto).
  unfold thin_border in TB. rewrite !Forall_cons_iff in TB. destruct TB as (_ & _ & (rL & EL & _ & _) & (rR & ER & _ & _) & _). rewrite EL, ER in *. revert SPL. generalize (lines c) as ls. intros ls SPL.
  induction ls as [|l ls IH]; [constructor|]. cbn [map]. constructor; [|apply IH; intros; apply SPL; right; auto].
  unfold color_sides. rewrite BC, K. cbn [negb andb app]. set (m := l ++ blanks (Z.max 0 (w - sw l))).
  destruct (m ++ [rR]) as [|x0 xs] eqn:EM; [apply app_eq_nil in EM as [_ EM]; discriminate|]. rewrite <- EM. rewrite removelast_last, last_last. clear x0 xs EM.
  assert (NM : ~ In 27 m) by (intros I; apply in_app_or in I as [I|I]; [revert I; apply SPL; left; auto|apply In_rep in I; lia]).
  change (rL :: reset) with ([rL] ++ reset). change (rR :: reset) with ([rR] ++ reset). rewrite <- !app_assoc. rewrite (obs_colored k bc [rL]) by (auto; intros I; tauto). rewrite obs_app, obs_text by auto. rewrite <- (app_nil_r reset). rewrite (obs_colored k bc [rR]) by (auto; intros I; tauto). cbn [obs]. rewrite app_nil_r. reflexivity.
Qed.
Example C110_met : let s := styled [Border rounded; BorderColor (SyModel.Rgb 1 2 3)] in valid s = true /\ size_violated len s [97] = false /\ style_pen s = pen0 /\ salign s = None /\ pad s = None /\ marg s = None /\
  sTop s && sBottom s && sLeft s && sRight s = true /\ colors_ok s /\ thin_border (fun _ => True) rounded.
Proof.
  cbv zeta. repeat (split; [reflexivity|]). split; [|apply C50_met]. split; [|split]; intros c E; cbn in E; try discriminate. apply some_inj in E. subst c. repeat split; cbn; lia.
Qed.

(* ---------- C111 ---------- *)
(** A terminal without colours still gets escape sequences for a border colour. *)
Theorem C111_reset_emitted_refuted : let s := styled [Border rounded; BorderColor (SyModel.Rgb 1 2 3); Capability NoColor] in In 27 (render len s [120]).
Proof. cbv zeta. vm_compute. auto 20. Qed.
(** Without border colour and decorations nothing but the laid-out text is written. *)
Theorem C193_no_colour_plain : forall sw s c, scap s = NoColor -> bcolor s = None -> bold s = false -> italic s = false -> underline s = false -> strike s = false ->
  valid s = true -> size_violated sw s c = false -> (forall b, bord s = Some b -> ~ border_has b 27) -> Forall scalar c -> ~ In 27 c ->
  render sw s c = laid_out sw s c /\ ~ In 27 (render sw s c).
Proof.
  intros sw s c K BC D1 D2 D3 D4 V SV NB SC NE. assert (R : render sw s c = laid_out sw s c).
  { unfold render, execute. rewrite V, SV. cbn [negb]. unfold apply_deco, apply_colors. rewrite K, D1, D2, D3, D4. destruct (fg s), (bg s); reflexivity. }
  rewrite R. split; [reflexivity|]. apply laid_out_low; auto; lia.
Qed.
Example C111_met : let s := styled [Foreground (SyModel.Rgb 9 9 9); Border rounded; Capability NoColor] in scap s = NoColor /\ bcolor s = None /\ valid s = true /\ size_violated len s [97] = false /\
  (forall b, bord s = Some b -> ~ border_has b 27).
Proof. cbv zeta. repeat (split; [reflexivity|]). intros b E. cbn in E. apply some_inj in E. subst b. unfold border_has. cbn. lia. Qed.

(* ---------- C112 ---------- *)
(** A text that misses the bounds is returned as it is: over-wide and without any of the style. *)
Theorem C112_bounds_drop_style_refuted :
  (forall sw s c, size_violated sw s c = true -> render sw s c = c) /\
  let s := styled [Bold true; MaxWidth 3] in render len s [97; 98; 99; 100] = [97; 98; 99; 100] /\ let s := styled [MinWidth 3; Padding 0 1 0 0] in render len s [97] = [97].
Proof. split; [|split; reflexivity]. intros sw s c H. unfold render, execute. rewrite H. destruct (negb (valid s)); reflexivity. Qed.
(** A text within the bounds is rendered as if there were none. *)
Definition unbounded (s : style) : style := match ssize s with None => s | Some z => with_size s (Size (width z) (height z) None None None None) end.
Theorem C194_within_bounds : forall sw s c, valid s = true -> size_violated sw s c = false -> render sw s c = render sw (unbounded s) c.
Proof.
  intros sw s c V H. unfold unbounded. destruct (ssize s) as [z|] eqn:E; [|reflexivity].
  unfold render, execute. rewrite V, H. replace (valid (with_size s (Size (width z) (height z) None None None None))) with (valid s) by reflexivity. rewrite V.
  unfold size_violated at 1. unfold with_size at 1. cbn [ssize minW maxW minH maxH]. unfold below at 1 2. cbn [orb negb]. destruct (outer_size _ _ _).
  unfold laid_out, apply_align, render_border, border_lines, color_line, color_sides, apply_colors, apply_deco, has, with_size. rewrite E. cbn [fg bg bord bcolor sTop sBottom sLeft sRight pad marg ssize salign bold italic underline strike scap]. reflexivity.
Qed.
Example C112_met : let s := styled [Bold true; MaxWidth 3; MinHeight 1] in valid s = true /\ size_violated len s [97; 98] = false /\ size_violated len s [97; 98; 99; 100] = true.
Proof. repeat split. Qed.

(* ---------- C113 ---------- *)
(** A side switched off before the border is chosen is shown all the same. *)
Theorem C113_order_refuted : forall b, let s := styled [BorderTop false; Border b] in has s (sTop s) = true.
Proof. reflexivity. Qed.
(** After a border has been chosen, each switch controls its own side and no other. *)
Theorem C195_switches : forall s b v,
  let shown s := (has s (sTop s), has s (sBottom s), has s (sLeft s), has s (sRight s)) in
  bord s = Some b ->
  shown (step s (BorderTop v)) = (v, has s (sBottom s), has s (sLeft s), has s (sRight s)) /\
  shown (step s (BorderBottom v)) = (has s (sTop s), v, has s (sLeft s), has s (sRight s)) /\
  shown (step s (BorderLeft v)) = (has s (sTop s), has s (sBottom s), v, has s (sRight s)) /\
  shown (step s (BorderRight v)) = (has s (sTop s), has s (sBottom s), has s (sLeft s), v) /\
  (sTop s || sBottom s || sLeft s || sRight s = true -> forall b', shown (step s (Border b')) = shown s).
Proof.
  intros s b v shown B. unfold shown, has. cbn [step sides bord sTop sBottom sLeft sRight]. rewrite B. destruct v, (sTop s), (sBottom s), (sLeft s), (sRight s); repeat split; intros; try discriminate; reflexivity.
Qed.
(** Switching a side on without a border makes rendering fail: the text is returned without any of the style. *)
Theorem C113_side_without_border_refuted : forall sw c, render sw (styled [Bold true; BorderTop true]) c = c.
Proof. reflexivity. Qed.
Example C113_met : bord (styled [Border rounded; BorderLeft false]) = Some rounded /\ (sTop (styled [Border rounded; BorderLeft false]) || false) = true.
Proof. split; reflexivity. Qed.

(* ---------- C114 ---------- *)
Definition opt_nn (o : option Z) : Prop := match o with Some v => 0 <= v | None => True end.
Definition sane (s : style) : Prop := nonneg (sp0 (pad s)) /\ nonneg (sp0 (marg s)) /\
  let z := sz0 (ssize s) in opt_nn (width z) /\ opt_nn (height z) /\ opt_nn (minW z) /\ opt_nn (maxW z) /\ opt_nn (minH z) /\ opt_nn (maxH z).
Lemma step_sane s o : sane s -> sane (step s o).
Proof.
  unfold sane, nonneg. intros ((P1 & P2 & P3 & P4) & (M1 & M2 & M3 & M4) & Z1 & Z2 & Z3 & Z4 & Z5 & Z6).
  destruct o; cbn [step with_colors with_pad with_marg with_size with_align with_deco sides new_spacing pad marg ssize sp0 sz0 top right bottom left width height minW maxW minH maxH nn opt_nn]; repeat split; auto; lia.
Qed.
(** No sequence of calls makes a spacing or a size negative. *)
Theorem C114_never_negative : forall os, sane (styled os).
Proof.
  intros os. unfold styled. assert (N : sane new_style) by (unfold sane, nonneg; cbn; repeat split; auto; lia). revert N. generalize new_style. induction os as [|o os IH]; intros s H; [exact H|]. cbn [fold_left]. apply IH. apply step_sane. exact H.
Qed.
(** What a call sets. *)
Inductive attr := AFg | ABg | ABorder | ABc | AT | AB | AL | AR | APt | APr | APb | APl | AMt | AMr | AMb | AMl | AW | AH | AMinW | AMaxW | AMinH | AMaxH | AHa | AVa | ABold | AIt | AUn | ASt | ACap.
Definition sets (o : op) : list attr :=
  match o with
  | Foreground _ => [AFg] | Background _ => [ABg] | Border _ => [ABorder; AT; AB; AL; AR] | BorderColor _ => [ABc]
  | BorderTop _ => [AT] | BorderBottom _ => [AB] | BorderLeft _ => [AL] | BorderRight _ => [AR]
  | Padding _ _ _ _ => [APt; APr; APb; APl] | PaddingTop _ => [APt] | PaddingRight _ => [APr] | PaddingBottom _ => [APb] | PaddingLeft _ => [APl] | PaddingHorizontal _ => [APl; APr] | PaddingVertical _ => [APt; APb]
  | Margin _ _ _ _ => [AMt; AMr; AMb; AMl] | MarginTop _ => [AMt] | MarginRight _ => [AMr] | MarginBottom _ => [AMb] | MarginLeft _ => [AMl] | MarginHorizontal _ => [AMl; AMr] | MarginVertical _ => [AMt; AMb]
  | Width _ => [AW] | Height _ => [AH] | MaxWidth _ => [AMaxW] | MaxHeight _ => [AMaxH] | MinWidth _ => [AMinW] | MinHeight _ => [AMinH]
  | Align _ _ => [AHa; AVa] | AlignHorizontal _ => [AHa] | AlignVertical _ => [AVa]
  | Bold _ => [ABold] | Italic _ => [AIt] | Underline _ => [AUn] | Strikethrough _ => [ASt] | Capability _ => [ACap]
  end.
Definition disjoint (a b : list attr) : Prop := forall x, In x a -> In x b -> False.
Definition attr_eq_dec (a b : attr) : {a = b} + {a <> b}. Proof. decide equality. Defined.
Definition disjointb (a b : list attr) : bool := forallb (fun x => if in_dec attr_eq_dec x b then false else true) a.
Lemma disjoint_b a b : disjoint a b -> disjointb a b = true.
Proof. intros D. apply forallb_forall. intros x X. destruct (in_dec attr_eq_dec x b); auto. destruct (D x X i). Qed.
Lemma max_nn v : 0 <= v -> Z.max 0 v = v. Proof. lia. Qed.
(** Calls that set different attributes can be made in any order. *)
Theorem C114_order_irrelevant : forall s o1 o2, sane s -> disjoint (sets o1) (sets o2) -> step (step s o1) o2 = step (step s o2) o1.
Proof.
  intros s o1 o2 SN D. apply disjoint_b in D. destruct SN as (P & M & _). unfold nonneg in P, M. destruct P as (P1 & P2 & P3 & P4), M as (M1 & M2 & M3 & M4).
  destruct o1, o2; try discriminate D; try reflexivity;
  cbn [step with_pad with_marg with_size with_align new_spacing fg bg bord bcolor sTop sBottom sLeft sRight pad marg ssize salign bold italic underline strike scap sp0 sz0 top right bottom left width height minW maxW minH maxH]; unfold with_pad, with_marg, new_spacing; cbn [top right bottom left]; rewrite ?Z.max_id, ?(max_nn (Z.max 0 _)), ?(max_nn _ P1), ?(max_nn _ P2), ?(max_nn _ P3), ?(max_nn _ P4), ?(max_nn _ M1), ?(max_nn _ M2), ?(max_nn _ M3), ?(max_nn _ M4) by lia; try reflexivity.
Qed.
(** The last of several calls of a setter wins. *)
Definition same_setter (o1 o2 : op) : Prop := sets o1 = sets o2 /\ forall b, o1 <> Border b.
Theorem C114_last_wins : forall s o1 o2, sane s -> same_setter o1 o2 -> step (step s o1) o2 = step s o2.
Proof.
  intros s o1 o2 SN [E NB]. destruct SN as (P & M & _). unfold nonneg in P, M. destruct P as (P1 & P2 & P3 & P4), M as (M1 & M2 & M3 & M4).
  destruct o1; try (exfalso; eapply NB; reflexivity); destruct o2; try discriminate E; try reflexivity;
  cbn [step with_pad with_marg with_size with_align new_spacing fg bg bord bcolor sTop sBottom sLeft sRight pad marg ssize salign bold italic underline strike scap sp0 sz0 top right bottom left width height minW maxW minH maxH]; unfold with_pad, with_marg, new_spacing; cbn [top right bottom left]; rewrite ?(max_nn (Z.max 0 _)), ?(max_nn _ P1), ?(max_nn _ P2), ?(max_nn _ P3), ?(max_nn _ P4), ?(max_nn _ M1), ?(max_nn _ M2), ?(max_nn _ M3), ?(max_nn _ M4) by lia; try reflexivity; destruct (salign s) as [[? ?]|]; reflexivity.
Qed.
(** A setter sets what it says. *)
Theorem C114_sets : forall s c t r b l v h va k d,
  fg (step s (Foreground c)) = Some c /\ bg (step s (Background c)) = Some c /\ bcolor (step s (BorderColor c)) = Some c /\
  pad (step s (Padding t r b l)) = Some (Sp (Z.max 0 t) (Z.max 0 r) (Z.max 0 b) (Z.max 0 l)) /\ marg (step s (Margin t r b l)) = Some (Sp (Z.max 0 t) (Z.max 0 r) (Z.max 0 b) (Z.max 0 l)) /\
  (top (sp0 (pad (step s (PaddingTop v)))), right (sp0 (pad (step s (PaddingRight v)))), bottom (sp0 (pad (step s (PaddingBottom v)))), left (sp0 (pad (step s (PaddingLeft v))))) = (Z.max 0 v, Z.max 0 v, Z.max 0 v, Z.max 0 v) /\
  (top (sp0 (marg (step s (MarginTop v)))), right (sp0 (marg (step s (MarginRight v)))), bottom (sp0 (marg (step s (MarginBottom v)))), left (sp0 (marg (step s (MarginLeft v))))) = (Z.max 0 v, Z.max 0 v, Z.max 0 v, Z.max 0 v) /\
  (left (sp0 (pad (step s (PaddingHorizontal v)))), right (sp0 (pad (step s (PaddingHorizontal v)))), top (sp0 (pad (step s (PaddingVertical v)))), bottom (sp0 (pad (step s (PaddingVertical v))))) = (Z.max 0 v, Z.max 0 v, Z.max 0 v, Z.max 0 v) /\
  (left (sp0 (marg (step s (MarginHorizontal v)))), right (sp0 (marg (step s (MarginHorizontal v)))), top (sp0 (marg (step s (MarginVertical v)))), bottom (sp0 (marg (step s (MarginVertical v))))) = (Z.max 0 v, Z.max 0 v, Z.max 0 v, Z.max 0 v) /\
  width (sz0 (ssize (step s (Width v)))) = Some (Z.max 0 v) /\ height (sz0 (ssize (step s (Height v)))) = Some (Z.max 0 v) /\
  minW (sz0 (ssize (step s (MinWidth v)))) = Some (Z.max 0 v) /\ maxW (sz0 (ssize (step s (MaxWidth v)))) = Some (Z.max 0 v) /\ minH (sz0 (ssize (step s (MinHeight v)))) = Some (Z.max 0 v) /\ maxH (sz0 (ssize (step s (MaxHeight v)))) = Some (Z.max 0 v) /\
  salign (step s (Align h va)) = Some (h, va) /\ option_map fst (salign (step s (AlignHorizontal h))) = Some h /\ option_map snd (salign (step s (AlignVertical va))) = Some va /\
  bold (step s (Bold d)) = d /\ italic (step s (Italic d)) = d /\ underline (step s (Underline d)) = d /\ strike (step s (Strikethrough d)) = d /\ scap (step s (Capability k)) = k.
Proof. intros. repeat split. Qed.
Example C114_met : sane (styled [PaddingTop (-3); MaxWidth 5]) /\ disjoint (sets (PaddingTop 1)) (sets (PaddingLeft 2)) /\ same_setter (PaddingHorizontal 1) (PaddingHorizontal 4).
Proof. split; [apply C114_never_negative|]. split; [intros x [<-|[]] [X|[]]; discriminate|]. split; [reflexivity|discriminate]. Qed.

Print Assumptions C108_width_ignored_refuted. Print Assumptions C108_several_lines_refuted. Print Assumptions C51_rendered_size. Print Assumptions C109_shown.
Print Assumptions C110_content_loses_style_refuted. Print Assumptions C193_coloured_frame. Print Assumptions C111_reset_emitted_refuted. Print Assumptions C193_no_colour_plain.
Print Assumptions C112_bounds_drop_style_refuted. Print Assumptions C194_within_bounds. Print Assumptions C113_order_refuted. Print Assumptions C195_switches.
Print Assumptions C113_side_without_border_refuted. Print Assumptions C114_never_negative. Print Assumptions C114_order_irrelevant. Print Assumptions C114_last_wins.
Print Assumptions C114_sets.
