(** Layout and rendering of styled text. *)
From Verif Require Import Prelude Utf8 Text TermEmu SyModel SySpec SyColorProps SyProofs.
From Verif Require LyProofs.
Notation blanks := (rep 32).
Notation lines := split_nl.

(* ---------- C50 ---------- *)
Section Rect.
Variable sw : list Z -> Z.
Variable thin : Z -> Prop.
Hypothesis POS : forall x, 0 <= sw x.
Hypothesis SP : thin 32.
Hypothesis EMPTY : sw [] = 0.
Hypothesis ADD0 : additive sw thin [].

Lemma sw_blanks n : 0 <= n -> sw (blanks n) = n.
Proof using SP EMPTY ADD0.
  clear POS. intros N. pose proof (ADD0 (blanks n) []) as A. cbn [app] in A. rewrite app_nil_r, EMPTY, rep_length in A. rewrite A; [cbn [length]; lia| |constructor].
  apply Forall_forall. intros x X. apply In_rep in X. subst. auto.
Qed.
Lemma blanks_thin n : Forall thin (blanks n).
Proof using SP. apply Forall_forall. intros x X. apply In_rep in X. subst. auto. Qed.
Lemma spacing_lines c p : c <> [] ->
  lines (apply_spacing sw c p) =
    repeat (blanks (match map (fun l => blanks (left p) ++ l ++ blanks (right p)) (lines c) with l :: _ => sw l | [] => left p + right p end)) (Z.to_nat (top p)) ++
    map (fun l => blanks (left p) ++ l ++ blanks (right p)) (lines c) ++
    repeat (blanks (match map (fun l => blanks (left p) ++ l ++ blanks (right p)) (lines c) with l :: _ => sw l | [] => left p + right p end)) (Z.to_nat (bottom p)).
Proof using.
  clear POS SP EMPTY ADD0 thin. intros NE. unfold apply_spacing. destruct c as [|a c]; [congruence|]. cbv zeta. apply split_join.
  - intros E. apply app_eq_nil in E as [_ E]. apply app_eq_nil in E as [E _]. apply map_eq_nil in E. revert E. apply split_nl_ne.
  - apply Forall_forall. intros l L. repeat (apply in_app_or in L as [L|L]); try (apply repeat_spec in L; subst; apply rep_no; lia).
    apply in_map_iff in L as (l0 & <- & L). pose proof (split_nl_lines (a :: c)) as Q. rewrite Forall_forall in Q. specialize (Q l0 L). intros I. repeat (apply in_app_or in I as [I|I]); auto; apply In_rep in I; lia.
Qed.
Lemma max_unique ls w : widest sw ls w -> max_of sw ls = w.
Proof using POS.
  clear SP EMPTY ADD0 thin. intros [H1 (l & L & H2)]. destruct (LyProofs.max_of_spec sw ls POS) as (_ & M & E). destruct (E ltac:(intros ->; destruct L)) as (l' & L' & E'). pose proof (H1 l' L'). pose proof (M l L). lia.
Qed.
Lemma max_widest ls : ls <> [] -> widest sw ls (max_of sw ls).
Proof using POS. intros N. destruct (LyProofs.max_of_spec sw ls POS) as (_ & M & E). split; auto. Qed.
Lemma map_widest ls w f k : (forall l, In l ls -> sw (f l) = sw l + k) -> widest sw ls w -> widest sw (map f ls) (w + k).
Proof using.
  clear POS SP EMPTY ADD0 thin. intros F [H1 (l & L & H2)]. split.
  - intros x X. apply in_map_iff in X as (y & <- & Y). rewrite F by auto. specialize (H1 y Y). lia.
  - exists (f l). split; [apply in_map; auto|]. rewrite F by auto. lia.
Qed.
End Rect.

(** Padding and margin: the lines of the text, in order, each between the left and right blanks, below the top and above the bottom
    blank lines; so the width grows by left + right and the height by top + bottom. *)
Theorem C50_spacing : forall (sw : list Z -> Z) (thin : Z -> Prop) c p, (forall x, 0 <= sw x) -> thin 32 -> sw [] = 0 -> additive sw thin [] ->
  c <> [] -> nonneg p -> (forall l, In l (lines c) -> additive sw thin l) ->
  exists e, lines (apply_spacing sw c p) = repeat (blanks e) (Z.to_nat (top p)) ++ map (fun l => blanks (left p) ++ l ++ blanks (right p)) (lines c) ++ repeat (blanks e) (Z.to_nat (bottom p)) /\
    (forall l, In l (lines c) -> sw (blanks (left p) ++ l ++ blanks (right p)) = left p + sw l + right p) /\
    Z.of_nat (length (lines (apply_spacing sw c p))) = top p + Z.of_nat (length (lines c)) + bottom p /\
    forall w, widest sw (lines c) w -> widest sw (lines (apply_spacing sw c p)) (left p + w + right p).
Proof.
  intros sw thin c p POS SP EM ADD0 NE (N1 & N2 & N3 & N4) ADD. rewrite spacing_lines by auto.
  assert (W : forall l, In l (lines c) -> sw (blanks (left p) ++ l ++ blanks (right p)) = left p + sw l + right p).
  { intros l L. rewrite (ADD l L) by (apply blanks_thin; auto). rewrite !rep_length. lia. }
  set (e := match map (fun l => blanks (left p) ++ l ++ blanks (right p)) (lines c) with l :: _ => sw l | [] => left p + right p end). exists e. split; [reflexivity|]. split; [exact W|]. split.
  { rewrite !app_length, !repeat_length, map_length. lia. }
  intros w H.
  assert (E : exists l0, In l0 (lines c) /\ e = sw (blanks (left p) ++ l0 ++ blanks (right p))).
  { unfold e. pose proof (split_nl_ne c). destruct (lines c) as [|l0 r]; [congruence|]. exists l0. cbn [map]. split; [left|]; auto. }
  destruct E as (l0 & L0 & E). rewrite (W l0 L0) in E. pose proof (POS l0).
  assert (HM : widest sw (map (fun l => blanks (left p) ++ l ++ blanks (right p)) (lines c)) (w + (left p + right p))) by (apply map_widest; auto; intros l L; rewrite W by auto; lia).
  replace (left p + w + right p) with (w + (left p + right p)) by lia. destruct H as [H1 H2], HM as [HM (l1 & L1 & HW)]. split.
  - intros l L. repeat (apply in_app_or in L as [L|L]); auto; apply repeat_spec in L; subst l; rewrite (sw_blanks sw thin) by (auto; lia); specialize (H1 l0 L0); lia.
  - exists l1. split; auto. apply in_or_app. right. apply in_or_app. auto.
Qed.
Lemma repeat_str_one r n : repeat_str [r] n = repeat r n.
Proof. induction n as [|n IH]; [reflexivity|]. cbn [repeat_str repeat app]. rewrite IH. reflexivity. Qed.
Lemma border_split sw thin s b c : bord s = Some b -> bcolor s = None -> thin_border thin b -> (sTop s || sBottom s || sLeft s || sRight s) = true ->
  lines (render_border sw s c) = border_lines sw s b (lines c).
Proof.
  intros B BC TB AS. unfold render_border. rewrite B. assert (HA : forall v, has s v = v) by (intros v; unfold has; rewrite B; destruct v; reflexivity). rewrite !HA.
  replace (negb (sTop s) && negb (sBottom s) && negb (sLeft s) && negb (sRight s)) with false by (destruct (sTop s), (sBottom s), (sLeft s), (sRight s); auto; discriminate).
  assert (N10 : forall x, In 10 x -> In x [bTop b; bBottom b; bLeft b; bRight b; bTL b; bTR b; bBL b; bBR b] -> False) by (unfold thin_border in TB; rewrite Forall_forall in TB; intros x X I; destruct (TB x I) as (r & -> & R & _); destruct X as [X|[]]; auto).
  assert (NS : forall v x, In 10 (side v x) -> In x [bTop b; bBottom b; bLeft b; bRight b; bTL b; bTR b; bBL b; bBR b] -> False) by (intros [|] x X I; cbn [side] in X; [eauto|destruct X]).
  apply split_join.
  - unfold border_lines. intros E. apply app_eq_nil in E as [_ E]. apply app_eq_nil in E as [E _]. apply map_eq_nil in E. revert E. apply split_nl_ne.
  - unfold border_lines, color_line, color_sides. rewrite BC, !HA. apply Forall_forall. intros l L I. apply in_app_or in L as [L|L]; [|apply in_app_or in L as [L|L]].
    + destruct (sTop s); [|destruct L]. destruct L as [<-|[]]. repeat (apply in_app_or in I as [I|I]); try (apply In_repeat_str in I; apply (N10 _ I); cbn; auto); apply (NS _ _ I); cbn; auto 10.
    + apply in_map_iff in L as (l0 & <- & L). pose proof (split_nl_lines c) as Q. rewrite Forall_forall in Q. specialize (Q l0 L). repeat (apply in_app_or in I as [I|I]); auto; try (apply In_rep in I; lia); apply (NS _ _ I); cbn; auto 10.
    + destruct (sBottom s); [|destruct L]. destruct L as [<-|[]]. repeat (apply in_app_or in I as [I|I]); try (apply In_repeat_str in I; apply (N10 _ I); cbn; auto); apply (NS _ _ I); cbn; auto 10.
Qed.
(** A border of one-cell characters, with any choice of sides: a top and a bottom edge where chosen, and between them every line of the
    text in order, unchanged, filled up with blanks and between the chosen bars; all lines are equally wide. *)
Theorem C50_border : forall (sw : list Z -> Z) (thin : Z -> Prop) s b c, (forall x, 0 <= sw x) -> thin 32 -> sw [] = 0 -> additive sw thin [] ->
  bord s = Some b -> bcolor s = None -> thin_border thin b -> (sTop s || sBottom s || sLeft s || sRight s) = true ->
  (forall l, In l (lines c) -> additive sw thin l) ->
  exists tp bt w, widest sw (lines c) w /\
    lines (render_border sw s c) =
      (if sTop s then [tp] else []) ++
      map (fun l => (if sLeft s then bLeft b else []) ++ l ++ blanks (w - sw l) ++ (if sRight s then bRight b else [])) (lines c) ++
      (if sBottom s then [bt] else []) /\
    tp = (if sLeft s then bTL b else []) ++ concat (repeat (bTop b) (Z.to_nat w)) ++ (if sRight s then bTR b else []) /\
    bt = (if sLeft s then bBL b else []) ++ concat (repeat (bBottom b) (Z.to_nat w)) ++ (if sRight s then bBR b else []) /\
    forall l, In l (lines (render_border sw s c)) -> sw l = w + (if sLeft s then 1 else 0) + (if sRight s then 1 else 0).
Proof.
  intros sw thin s b c POS SP EM ADD0 B BC TB AS ADD. rewrite (border_split sw thin s b c B BC TB AS). unfold border_lines, color_line, color_sides. rewrite BC.
  assert (HA : forall v, has s v = v) by (intros v; unfold has; rewrite B; destruct v; reflexivity). rewrite !HA.
  set (w := max_of sw (lines c)). pose proof (max_widest sw POS (lines c) (split_nl_ne c)) as MW. fold w in MW.
  assert (W0 : 0 <= w) by (destruct MW as [_ (l & _ & <-)]; auto).
  assert (CR : forall x n, repeat_str x n = concat (repeat x n)) by (intros x n; induction n as [|n IH]; [reflexivity|cbn [repeat_str repeat concat]; rewrite IH; reflexivity]).
  eexists _, _, w. split; [exact MW|]. split; [|split; [reflexivity|split; [reflexivity|]]].
  - unfold side. rewrite !CR. f_equal. f_equal. apply map_ext_in. intros l L. destruct MW as [MW _]. specialize (MW l L). replace (Z.max 0 (w - sw l)) with (w - sw l) by lia. rewrite <- !app_assoc. reflexivity.
  - unfold thin_border in TB. rewrite !Forall_cons_iff in TB. destruct TB as ((rT & -> & _ & TT) & (rB & -> & _ & TBo) & (rL & -> & _ & TL) & (rR & -> & _ & TR) & (rTL & -> & _ & TTL) & (rTR & -> & _ & TTR) & (rBL & -> & _ & TBL) & (rBR & -> & _ & TBR) & _).
    assert (SI : forall (v : bool) r, thin r -> Forall thin (side v [r]) /\ Z.of_nat (length (side v [r])) = if v then 1 else 0) by (intros [|] r R; split; [repeat constructor; auto|reflexivity|constructor|reflexivity]).
    assert (RT : forall r n, thin r -> Forall thin (repeat r n)) by (intros r n R; apply Forall_forall; intros x X; apply repeat_spec in X; subst; auto).
    assert (EDGE : forall rl r rr, thin rl -> thin r -> thin rr -> sw (side (sLeft s) [rl] ++ repeat_str [r] (Z.to_nat w) ++ side (sRight s) [rr]) = w + (if sLeft s then 1 else 0) + (if sRight s then 1 else 0)).
    { intros rl r rr H1 H2 H3. rewrite repeat_str_one. destruct (SI (sLeft s) rl H1) as [S1 S2], (SI (sRight s) rr H3) as [S3 S4].
      pose proof (ADD0 (side (sLeft s) [rl] ++ repeat r (Z.to_nat w)) (side (sRight s) [rr])) as A. cbn [app] in A. rewrite <- app_assoc in A. rewrite A; [|apply Forall_app; auto|auto]. rewrite app_length, repeat_length. lia. }
    intros l L. apply in_app_or in L as [L|L]; [|apply in_app_or in L as [L|L]].
    + destruct (sTop s); [|destruct L]. destruct L as [<-|[]]. apply EDGE; auto.
    + apply in_map_iff in L as (l0 & <- & L). destruct (SI (sLeft s) rL TL) as [S1 S2], (SI (sRight s) rR TR) as [S3 S4]. rewrite <- app_assoc.
      rewrite (ADD l0 L) by (auto; apply Forall_app; split; auto; apply blanks_thin; auto). rewrite app_length, rep_length. destruct MW as [MW _]. specialize (MW l0 L). lia.
    + destruct (sBottom s); [|destruct L]. destruct L as [<-|[]]. apply EDGE; auto.
Qed.
Lemma additive_ext sw thin l A B : additive sw thin l -> Forall thin A -> Forall thin B -> additive sw thin (A ++ l ++ B).
Proof.
  intros H HA HB a b Ha Hb. rewrite (H A B HA HB). replace (a ++ (A ++ l ++ B) ++ b) with ((a ++ A) ++ l ++ (B ++ b)) by (rewrite <- !app_assoc; reflexivity).
  rewrite H by (apply Forall_app; auto). rewrite !app_length. lia.
Qed.
Lemma additive_thin sw thin l : additive sw thin [] -> Forall thin l -> additive sw thin l.
Proof. intros H F. pose proof (additive_ext sw thin [] l [] H F ltac:(constructor)) as Q. cbn [app] in Q. rewrite app_nil_r in Q. exact Q. Qed.
Lemma spacing_additive sw (thin : Z -> Prop) c p : thin 32 -> additive sw thin [] -> c <> [] -> (forall l, In l (lines c) -> additive sw thin l) -> forall l, In l (lines (apply_spacing sw c p)) -> additive sw thin l.
Proof.
  intros SP ADD0 NE ADD l L. rewrite spacing_lines in L by auto. repeat (apply in_app_or in L as [L|L]); try (apply repeat_spec in L; subst; apply additive_thin; auto; apply blanks_thin; auto).
  apply in_map_iff in L as (l0 & <- & L). apply additive_ext; auto; apply blanks_thin; auto.
Qed.
Lemma spacing_ne sw c p : c <> [] -> top p + left p + right p + bottom p >= 0 -> apply_spacing sw c p <> [].
Proof.
  intros NE _ E. pose proof (spacing_lines sw c p NE) as S. rewrite E in S. cbn [split_nl] in S. destruct (lines c) as [|l0 r] eqn:EC; [revert EC; apply split_nl_ne|].
  destruct (Z.to_nat (top p)) as [|n]; cbn [repeat app map] in S.
  - destruct r as [|l1 r]; [|discriminate]. cbn [map app] in S. injection S as S1 S2. symmetry in S1. apply app_eq_nil in S1 as [_ S1]. apply app_eq_nil in S1 as [S1 _]. subst l0. pose proof (join_split c) as J. rewrite EC in J. cbn in J. auto.
  - injection S as _ S2. symmetry in S2. apply app_eq_nil in S2 as [_ S2]. discriminate.
Qed.
(** A rendering with a full border around padding, inside a margin: exactly the predicted number of lines, all of the predicted width. *)
Theorem C50_size : forall (sw : list Z -> Z) (thin : Z -> Prop) s b c p m w, (forall x, 0 <= sw x) -> thin 32 -> sw [] = 0 -> additive sw thin [] ->
  bord s = Some b -> bcolor s = None -> thin_border thin b -> sTop s = true -> sBottom s = true -> sLeft s = true -> sRight s = true ->
  salign s = None -> pad s = Some p -> marg s = Some m -> nonneg p -> nonneg m -> c <> [] ->
  (forall l, In l (lines c) -> additive sw thin l) -> widest sw (lines c) w ->
  Z.of_nat (length (lines (laid_out sw s c))) = top m + 1 + top p + Z.of_nat (length (lines c)) + bottom p + 1 + bottom m /\
  forall l, In l (lines (laid_out sw s c)) -> sw l = left m + 1 + left p + w + right p + 1 + right m.
Proof.
  intros sw thin s b c p m w POS SP EM ADD0 B BC TB S1 S2 S3 S4 AL P M NP NM NE ADD W. unfold laid_out, apply_opt, apply_align. rewrite AL, P, M.
  destruct (C50_spacing sw thin c p POS SP EM ADD0 NE NP ADD) as (e & E1 & _ & E2 & E3). specialize (E3 w W).
  pose proof (spacing_additive sw thin c p SP ADD0 NE ADD) as ADD1. set (c1 := apply_spacing sw c p) in *.
  destruct (C50_border sw thin s b c1 POS SP EM ADD0 B BC TB ltac:(rewrite S1; reflexivity) ADD1) as (tp & bt & w1 & W1 & L1 & TP & BT & AW). rewrite S1, S2, S3, S4 in *.
  assert (w1 = left p + w + right p) as -> by (rewrite <- (max_unique sw POS _ _ W1), <- (max_unique sw POS _ _ E3); reflexivity).
  set (c2 := render_border sw s c1) in *.
  unfold thin_border in TB. rewrite !Forall_cons_iff in TB. destruct TB as ((rT & ET & _ & TT) & (rB & EB & _ & TBo) & (rL & EL & _ & TL) & (rR & ER & _ & TR) & (rTL & ETL & _ & TTL) & (rTR & ETR & _ & TTR) & (rBL & EBL & _ & TBL) & (rBR & EBR & _ & TBR) & _).
  assert (CC : forall r n, thin r -> Forall thin (concat (repeat [r] n))) by (intros r n R; induction n; cbn [repeat concat app]; constructor; auto).
  assert (ADD2 : forall l, In l (lines c2) -> additive sw thin l).
  { rewrite L1. intros l L. apply in_app_or in L as [L|L]; [|apply in_app_or in L as [L|L]].
    - destruct L as [<-|[]]. subst tp. apply additive_thin; auto. rewrite ETL, ET, ETR. apply Forall_app; split; [repeat constructor; auto|]. apply Forall_app; split; [auto|repeat constructor; auto].
    - apply in_map_iff in L as (l0 & <- & L). rewrite EL, ER. apply additive_ext; auto. apply Forall_app; split; [apply blanks_thin; auto|repeat constructor; auto].
    - destruct L as [<-|[]]. subst bt. apply additive_thin; auto. rewrite EBL, EB, EBR. apply Forall_app; split; [repeat constructor; auto|]. apply Forall_app; split; [auto|repeat constructor; auto]. }
  assert (NE2 : c2 <> []).
  { intros E. rewrite E in L1. cbn [split_nl app] in L1. injection L1 as _ L1. symmetry in L1. apply app_eq_nil in L1 as [_ L1]. discriminate. }
  rewrite spacing_lines by auto. split.
  - rewrite !app_length, !repeat_length, map_length. rewrite L1. rewrite !app_length, map_length. cbn [length]. destruct NM as (? & ? & ? & ?). lia.
  - assert (HW : forall l, In l (lines c2) -> sw (blanks (left m) ++ l ++ blanks (right m)) = left m + 1 + left p + w + right p + 1 + right m).
    { intros l L. rewrite (ADD2 l L) by (apply blanks_thin; auto). rewrite (AW l L), !rep_length. destruct NM as (? & ? & ? & ?). lia. }
    assert (WP : 0 <= left m + 1 + left p + w + right p + 1 + right m) by (destruct W as [_ (l & _ & <-)]; pose proof (POS l); destruct NM as (? & ? & ? & ?), NP as (? & ? & ? & ?); lia).
    assert (HE : (match map (fun l => blanks (left m) ++ l ++ blanks (right m)) (lines c2) with l :: _ => sw l | [] => left m + right m end) = left m + 1 + left p + w + right p + 1 + right m).
    { pose proof (split_nl_ne c2). destruct (lines c2) as [|l0 r]; [congruence|]. cbn [map]. apply HW. left. auto. }
    rewrite HE. intros l L. repeat (apply in_app_or in L as [L|L]); try (apply repeat_spec in L; subst l; apply (sw_blanks sw thin); auto).
    apply in_map_iff in L as (l0 & <- & L). auto.
Qed.
Definition len (l : list Z) : Z := Z.of_nat (length l).
Lemma len_additive : forall l, additive len (fun _ => True) l.
Proof. intros l a b _ _. unfold len. rewrite !app_length. lia. Qed.
(** The hypotheses are met: counting characters is such a width, the rounded border such a border. *)
Example C50_met : thin_border (fun _ => True) rounded /\ (forall x, 0 <= len x) /\ (forall l, additive len (fun _ => True) l) /\
  let s := styled [Border rounded; Padding 1 2 0 2; Margin 0 0 1 3] in let c := [97; 98; 10; 99] in
  bord s = Some rounded /\ bcolor s = None /\ sTop s && sBottom s && sLeft s && sRight s = true /\ salign s = None /\ pad s = Some (Sp 1 2 0 2) /\ marg s = Some (Sp 0 0 1 3) /\
  widest len (lines c) 2 /\ map len (lines (laid_out len s c)) = [11; 11; 11; 11; 11; 11] /\
  lines (laid_out len s c) = [ [32; 32; 32; 9581; 9472; 9472; 9472; 9472; 9472; 9472; 9582];
                               [32; 32; 32; 9474; 32; 32; 32; 32; 32; 32; 9474];
                               [32; 32; 32; 9474; 32; 32; 97; 98; 32; 32; 9474];
                               [32; 32; 32; 9474; 32; 32; 99; 32; 32; 32; 9474];
                               [32; 32; 32; 9584; 9472; 9472; 9472; 9472; 9472; 9472; 9583];
                               [32; 32; 32; 32; 32; 32; 32; 32; 32; 32; 32] ].
Proof.
  split; [unfold thin_border, rounded; cbn [bTop bBottom bLeft bRight bTL bTR bBL bBR]; repeat (apply Forall_cons; [eexists; split; [reflexivity|split; [lia|exact I]]|]); apply Forall_nil|]. split; [intros; unfold len; lia|]. split; [apply len_additive|].
  cbv zeta. repeat (split; [reflexivity|]). split; [split; [intros l [<-|[<-|[]]]; cbn; lia|exists [97; 98]; cbn; auto]|]. split; reflexivity.
Qed.

(* ---------- C51 ---------- *)
(** A line that fits is kept whole; the blanks go to the side the mode says, the odd one of a centred line to the left. *)
Theorem C51_line : forall (sw : list Z -> Z) t w h, 0 <= sw t <= w ->
  exists a b, align_h sw t w h = blanks a ++ t ++ blanks b /\ 0 <= a /\ 0 <= b /\ a + sw t + b = w /\
    match h with HLeft => a = 0 | HRight => b = 0 | HCenter => b <= a <= b + 1 end.
Proof.
  intros sw t w h H. unfold align_h. replace (w <? sw t) with false by lia. destruct (sw t =? w) eqn:E.
  - exists 0, 0. cbn [rep Z.to_nat repeat app]. rewrite app_nil_r. split; [reflexivity|]. destruct h; lia.
  - destruct h.
    + exists 0, (w - sw t). split; [reflexivity|]. lia.
    + exists ((w - sw t + 1) / 2), (w - sw t - (w - sw t + 1) / 2). split; [reflexivity|]. lia.
    + exists (w - sw t), 0. change (blanks 0) with (@nil Z). rewrite app_nil_r. split; [reflexivity|]. lia.
Qed.
Lemma enc_ascii t : Forall (fun c => 0 <= c < 128) t -> enc t = t.
Proof. induction 1 as [|c t H _ IH]; [reflexivity|]. unfold enc in *. cbn [flat_map]. rewrite IH. unfold enc_rune. replace (c <? 128) with true by lia. reflexivity. Qed.
Lemma ascii_scalar t : Forall (fun c => 0 <= c < 128) t -> Forall scalar t.
Proof. apply Forall_impl. intros c H. left. lia. Qed.
Lemma Forall_firstn {A} (P : A -> Prop) n l : Forall P l -> Forall P (firstn n l).
Proof. intros H. rewrite <- (firstn_skipn n l) in H. apply Forall_app in H. tauto. Qed.
(** A line of ASCII text that is too wide is cut to its first characters. *)
Theorem C51_cut : forall (sw : list Z -> Z) t w h, Forall (fun c => 0 <= c < 128) t -> 0 <= w < sw t -> align_h sw t w h = firstn (Z.to_nat w) t.
Proof.
  intros sw t w h A H. unfold align_h. replace (w <? sw t) with true by lia. rewrite enc_ascii by auto. rewrite <- (runes_of_enc (firstn (Z.to_nat w) t)) at 2 by (apply ascii_scalar, Forall_firstn; auto).
  rewrite (enc_ascii (firstn _ t)) by (apply Forall_firstn; auto). reflexivity.
Qed.
(** A line is alignable when it fits or is printable ASCII of the usual width. *)
Definition alignable (sw : list Z -> Z) (w : Z) (l : list Z) : Prop := sw l <= w \/ (Forall (fun c => 32 <= c < 127) l /\ forall k, sw (firstn k l) = len (firstn k l)).
(** Aligning a text in a box: exactly [h] lines of width [w]. Of a text with at most [h] lines every line is there, aligned, in order,
    with the blank lines on the documented side; of a longer one the first [h]. *)
Theorem C51_box : forall (sw : list Z -> Z) (thin : Z -> Prop) t w h ha va, (forall x, 0 <= sw x) -> thin 32 -> sw [] = 0 -> additive sw thin [] ->
  0 < w -> 0 < h -> (forall l, In l (lines t) -> additive sw thin l /\ alignable sw w l) ->
  let r := lines (align_both sw t w h (ha, va)) in let ls := map (fun l => align_h sw l w ha) (lines t) in
  Z.of_nat (length r) = h /\ (forall l, In l r -> sw l = w) /\
  if h <=? Z.of_nat (length (lines t)) then r = firstn (Z.to_nat h) ls
  else exists a b, r = repeat (blanks w) a ++ ls ++ repeat (blanks w) b /\ match va with VTop => a = 0%nat | VBottom => b = 0%nat | VMiddle => (b <= a <= b + 1)%nat end.
Proof.
  intros sw thin t w h ha va POS SP EM ADD0 W H AL r ls.
  assert (LW : forall l, In l ls -> sw l = w /\ ~ In 10 l).
  { intros l L. unfold ls in L. apply in_map_iff in L as (l0 & <- & L). destruct (AL l0 L) as [AD A]. pose proof (split_nl_lines t) as Q. rewrite Forall_forall in Q. specialize (Q l0 L).
    destruct (Z.leb_spec (sw l0) w) as [LE|GT].
    - destruct (C51_line sw l0 w ha ltac:(pose proof (POS l0); lia)) as (a & b & -> & A1 & B1 & S & _). split.
      + rewrite AD by (apply blanks_thin; auto). rewrite !rep_length. lia.
      + intros I. repeat (apply in_app_or in I as [I|I]); auto; apply In_rep in I; lia.
    - destruct A as [A|[A1 A2]]; [lia|]. assert (A0 : Forall (fun c => 0 <= c < 128) l0) by (eapply Forall_impl; [|exact A1]; cbn; intros; lia). rewrite C51_cut by (auto; lia). split.
      + rewrite A2. unfold len. pose proof (A2 (length l0)) as A3. rewrite firstn_all in A3. unfold len in A3. rewrite firstn_length. lia.
      + intros I. apply Q. rewrite <- (firstn_skipn (Z.to_nat w) l0). apply in_or_app. auto. }
  assert (LN : length ls = length (lines t)) by apply map_length.
  assert (LE : ls <> []) by (intros E; apply map_eq_nil in E; revert E; apply split_nl_ne).
  assert (F10 : forall x, (forall l, In l x -> In l ls \/ l = blanks w) -> Forall (fun l => ~ In 10 l) x).
  { intros x X. apply Forall_forall. intros l L. destruct (X l L) as [Y| ->]; [apply LW; auto|apply rep_no; lia]. }
  assert (SJ : lines (join_nl ls) = ls) by (apply split_join; auto).
  assert (MX : max_of sw ls = w).
  { apply max_unique; auto. split; [intros l L; destruct (LW l L); lia|]. destruct ls as [|l0 l1] eqn:E; [congruence|]. exists l0. split; [left; auto|]. apply LW. left. auto. }
  assert (SB : sw (blanks w) = w) by (apply (sw_blanks sw thin); auto; lia).
  unfold r, align_both. cbn [fst snd]. fold ls. unfold align_v. rewrite SJ, MX.
  assert (BK : forall a b, (Z.of_nat a + Z.of_nat (length ls) + Z.of_nat b = h) -> lines (join_nl (repeat (blanks w) a ++ ls ++ repeat (blanks w) b)) = repeat (blanks w) a ++ ls ++ repeat (blanks w) b /\
    Z.of_nat (length (repeat (blanks w) a ++ ls ++ repeat (blanks w) b)) = h /\ forall l, In l (repeat (blanks w) a ++ ls ++ repeat (blanks w) b) -> sw l = w).
  { intros a b AB. assert (X : forall l, In l (repeat (blanks w) a ++ ls ++ repeat (blanks w) b) -> In l ls \/ l = blanks w) by (intros l L; repeat (apply in_app_or in L as [L|L]); auto; apply repeat_spec in L; auto).
    split; [apply split_join; auto; intros E; apply app_eq_nil in E as [_ E]; apply app_eq_nil in E as [E _]; auto|]. split; [rewrite !app_length, !repeat_length; lia|]. intros l L. destruct (X l L) as [Y| ->]; auto. apply LW. auto. }
  destruct (h <? Z.of_nat (length ls)) eqn:E1; [|destruct (Z.of_nat (length ls) =? h) eqn:E2].
  - replace (h <=? Z.of_nat (length (lines t))) with true by lia.
    assert (SUB : forall l, In l (firstn (Z.to_nat h) ls) -> In l ls) by (intros l L; rewrite <- (firstn_skipn (Z.to_nat h) ls); apply in_or_app; auto).
    rewrite split_join; [|intros E; apply (f_equal (@length _)) in E; rewrite firstn_length in E; cbn in E; lia|apply F10; auto].
    split; [rewrite firstn_length; lia|]. split; [intros l L; apply LW; auto|reflexivity].
  - replace (h <=? Z.of_nat (length (lines t))) with true by lia. rewrite SJ. split; [lia|]. split; [intros l L; apply LW; auto|]. rewrite firstn_all2 by lia. reflexivity.
  - replace (h <=? Z.of_nat (length (lines t))) with false by lia. cbv zeta. destruct va.
    + destruct (BK 0%nat (Z.to_nat (h - Z.of_nat (length ls))) ltac:(lia)) as (B1 & B2 & B3). cbn [repeat app] in B1, B2, B3. rewrite B1. split; [exact B2|]. split; [exact B3|]. eexists 0%nat, _. split; reflexivity.
    + destruct (BK (Z.to_nat ((h - Z.of_nat (length ls) + 1) / 2)) (Z.to_nat (h - Z.of_nat (length ls) - (h - Z.of_nat (length ls) + 1) / 2)) ltac:(lia)) as (B1 & B2 & B3). rewrite B1. split; [exact B2|]. split; [exact B3|]. eexists _, _. split; [reflexivity|]. lia.
    + destruct (BK (Z.to_nat (h - Z.of_nat (length ls))) 0%nat ltac:(lia)) as (B1 & B2 & B3). cbn [repeat] in B1, B2, B3. rewrite app_nil_r in B1, B2, B3. rewrite B1. split; [exact B2|]. split; [exact B3|]. eexists _, 0%nat. cbn [repeat]. rewrite app_nil_r. split; reflexivity.
Qed.
Example C51_met : let t := [97; 98; 99; 10; 100] in (forall l, In l (lines t) -> additive len (fun _ => True) l /\ alignable len 2 l) /\
  lines (align_both len t 2 4 (HRight, VMiddle)) = [[32; 32]; [97; 98]; [32; 100]; [32; 32]] /\ lines (align_both len t 5 3 (HCenter, VTop)) = [[32; 97; 98; 99; 32]; [32; 32; 100; 32; 32]; [32; 32; 32; 32; 32]].
Proof.
  cbv zeta. split; [|split; reflexivity]. intros l [<-|[<-|[]]]; (split; [apply len_additive|]); [right|left; cbn; lia]. split; [repeat constructor; lia|auto].
Qed.

(* ---------- C107 ---------- *)
(** Text beyond ASCII that is too wide is cut in the middle of its bytes: the result has another width, or ends in a broken character. *)
Theorem C107_cut_bytes_refuted : forall (sw : list Z -> Z), sw [26085; 26412] = 4 -> sw [26085] = 2 ->
  (forall h, sw (align_h sw [26085; 26412] 3 h) <> 3) /\ (forall h, align_h sw [26085; 26412] 1 h = [rune_error]).
Proof. intros sw H1 H2. split; intros h; unfold align_h; rewrite H1; [change (sw [26085] <> 3); lia|reflexivity]. Qed.
(** ASCII text is cut to the width. *)
Theorem C51_cut_prefix : forall (sw : list Z -> Z) t w h, Forall (fun c => 32 <= c < 127) t -> (forall k, sw (firstn k t) = len (firstn k t)) -> 0 <= w < sw t ->
  align_h sw t w h = firstn (Z.to_nat w) t /\ sw (align_h sw t w h) = w.
Proof.
  intros sw t w h A S H. assert (A0 : Forall (fun c => 0 <= c < 128) t) by (eapply Forall_impl; [|exact A]; cbn; intros; lia). rewrite C51_cut by (auto; lia). split; [reflexivity|]. rewrite S. unfold len. pose proof (S (length t)) as A3. rewrite firstn_all in A3. unfold len in A3. rewrite firstn_length. lia.
Qed.
Example C107_met : Forall (fun c => 32 <= c < 127) [97; 98; 99] /\ (forall k, len (firstn k [97; 98; 99]) = len (firstn k [97; 98; 99])) /\ 0 <= 2 < len [97; 98; 99].
Proof. split; [repeat constructor; lia|]. split; [auto|cbn; lia]. Qed.

Print Assumptions C50_spacing. Print Assumptions C50_border. Print Assumptions C50_size. Print Assumptions C51_line.
Print Assumptions C51_cut. Print Assumptions C51_box. Print Assumptions C107_cut_bytes_refuted. Print Assumptions C51_cut_prefix.
