(** Themes. *)
From Coq Require Import Permutation.
From Verif Require Import Prelude Utf8 Text TermEmu SyModel SySpec SyTextProps SyProofs.

(* ---------- C115 ---------- *)
Lemma merge_by_nth {A} (u : A -> bool) : forall b o i, length b = length o -> nth_error (merge_by u b o) i = match nth_error b i, nth_error o i with Some x, Some y => Some (if u y then x else y) | _, _ => None end.
Proof.
  induction b as [|x b IH]; intros [|y o] i L; cbn [length] in L; try discriminate; [destruct i; reflexivity|]. destruct i as [|i]; cbn [merge_by nth_error]; [reflexivity|]. apply IH. lia.
Qed.
Lemma ceq_black c : ceq c black = true <-> c = black.
Proof. unfold ceq, black. destruct c as [r g b]. cbn [cr cg cb]. split; intros H; [f_equal; lia|injection H as -> -> ->; reflexivity]. Qed.
Lemma hidden_spec b : hidden b = true <-> b = hidden_border.
Proof.
  unfold hidden, hidden_border, nilb. destruct b as [[|? ?] [|? ?] [|? ?] [|? ?] [|? ?] [|? ?] [|? ?] [|? ?]]; cbn; split; intros H; try discriminate; auto.
Qed.
(** Merging takes, field by field, the overriding theme's value where it is set (a colour other than black, a border other than the
    hidden one, a positive spacing) and the base theme's otherwise; the name is the overriding theme's. *)
Theorem C115_merge : forall t o, theme_ok t -> theme_ok o ->
  theme_ok (merge t o) /\ tname (merge t o) = tname o /\
  (forall i c, nth_error (tcolors o) i = Some c -> nth_error (tcolors (merge t o)) i = if ceq c black then nth_error (tcolors t) i else Some c) /\
  (forall i b, nth_error (tborders o) i = Some b -> (b <> hidden_border -> nth_error (tborders (merge t o)) i = Some b) /\ (b = hidden_border -> nth_error (tborders (merge t o)) i = nth_error (tborders t) i)) /\
  (forall i v, nth_error (tspacing o) i = Some v -> nth_error (tspacing (merge t o)) i = if 0 <? v then Some v else nth_error (tspacing t) i) /\
  (forall i c, nth_error (ttypo o) i = Some c -> nth_error (ttypo (merge t o)) i = if ceq c black then nth_error (ttypo t) i else Some c).
Proof.
  intros t o (T1 & T2 & T3 & T4) (O1 & O2 & O3 & O4).
  assert (ML : forall A (u : A -> bool) b o0, length b = length o0 -> length (merge_by u b o0) = length b) by (intros A u; induction b as [|x b IH]; intros [|y o0] L; cbn [length] in L; try discriminate; [reflexivity|]; cbn [merge_by length]; f_equal; apply IH; lia).
  assert (SB : forall A (b o0 : list A) i c, length b = length o0 -> nth_error o0 i = Some c -> exists x, nth_error b i = Some x).
  { intros A b o0 i c L H. destruct (nth_error b i) eqn:E; [eauto|]. apply nth_error_None in E. assert (i < length o0)%nat by (apply nth_error_Some; congruence). lia. }
  unfold merge, theme_ok. cbn [tname tcolors tborders tspacing ttypo]. rewrite !ML by congruence. split; [auto|]. split; [reflexivity|].
  split; [|split; [|split]]; intros i c H; rewrite merge_by_nth by congruence; rewrite H.
  - destruct (SB _ (tcolors t) _ i c ltac:(rewrite T1; eauto) H) as (x & X). rewrite X. destruct (ceq c black); reflexivity.
  - destruct (SB _ (tborders t) _ i c ltac:(rewrite T2; eauto) H) as (x & X). rewrite X. destruct (hidden c) eqn:E; split; intros Q; auto; [apply hidden_spec in E; congruence|]. subst c. discriminate E.
  - destruct (SB _ (tspacing t) _ i c ltac:(rewrite T3; eauto) H) as (x & X). rewrite X. destruct (c <=? 0) eqn:E, (0 <? c) eqn:E2; try lia; reflexivity.
  - destruct (SB _ (ttypo t) _ i c ltac:(rewrite T4; eauto) H) as (x & X). rewrite X. destruct (ceq c black); reflexivity.
Qed.
Example C115_met : Forall theme_ok presets /\ nth_error (tcolors (merge dark_theme light_theme)) 2 = Some (SyModel.Rgb 255 255 255).
Proof. split; [repeat constructor|reflexivity]. Qed.

(* ---------- C116 ---------- *)
(** A complete theme merged over another does not win everywhere: merging the dark preset over the light one keeps the white
    background under the dark theme's light text; the high-contrast preset even keeps the light surface. *)
Theorem C116_black_is_unset_refuted :
  nth_error (tcolors dark_theme) 2 = Some black /\ nth_error (tcolors (merge light_theme dark_theme)) 2 = Some (SyModel.Rgb 255 255 255) /\
  nth_error (tcolors (merge light_theme dark_theme)) 4 = Some (SyModel.Rgb 229 231 235) /\
  nth_error (tcolors contrast_theme) 3 = Some black /\ nth_error (tcolors (merge light_theme contrast_theme)) 3 = Some (SyModel.Rgb 249 250 251).
Proof. repeat split. Qed.
(** A theme without black colours, hidden borders or empty spacings replaces any theme. *)
Theorem C115_replaces : forall t o, theme_ok t -> theme_ok o -> ~ In black (tcolors o) -> ~ In black (ttypo o) -> ~ In hidden_border (tborders o) -> Forall (fun v => 0 < v) (tspacing o) -> merge t o = o.
Proof.
  intros t o (T1 & T2 & T3 & T4) (O1 & O2 & O3 & O4) N1 N2 N3 N4.
  assert (M : forall A (u : A -> bool) b o0, length b = length o0 -> (forall x, In x o0 -> u x = false) -> merge_by u b o0 = o0).
  { intros A u. induction b as [|x b IH]; intros [|y o0] L H; cbn [length] in L; try discriminate; [reflexivity|]. cbn [merge_by]. rewrite H by (left; auto). f_equal. apply IH; [lia|]. intros z Z. apply H. right. auto. }
  unfold merge. destruct o as [n c b s y]. cbn [tname tcolors tborders tspacing ttypo] in *. f_equal; apply M; try congruence; intros x X.
  - destruct (ceq x black) eqn:E; auto. apply ceq_black in E. congruence.
  - destruct (hidden x) eqn:E; auto. apply hidden_spec in E. congruence.
  - rewrite Forall_forall in N4. specialize (N4 x X). lia.
  - destruct (ceq x black) eqn:E; auto. apply ceq_black in E. congruence.
Qed.
Example C116_met : theme_ok light_theme /\ ~ In black (tcolors light_theme) /\ ~ In black (ttypo light_theme) /\ ~ In hidden_border (tborders light_theme) /\ Forall (fun v => 0 < v) (tspacing light_theme).
Proof. split; [repeat split|]. split; [cbn; intuition discriminate|]. split; [cbn; intuition discriminate|]. split; [cbn; intuition discriminate|]. repeat constructor. Qed.

(* ---------- C117 ---------- *)
(** Threads calling one manager in any interleaving: [progs] are the calls each thread still has to make. *)
Record mstate := MS { mcur : theme; progs : list (list tcall); trace : list (nat * tcall * tres) }.
Inductive mstep : mstate -> mstate -> Prop :=
| MStep : forall cur ps tr i c rest cur' r, nth_error ps i = Some (c :: rest) -> manage cur c = (cur', r) -> mstep (MS cur ps tr) (MS cur' (set_nth ps i rest) (tr ++ [(i, c, r)])).
Inductive mreach (m0 : mstate) : mstate -> Prop := MRefl : mreach m0 m0 | MNext m m' : mreach m0 m -> mstep m m' -> mreach m0 m'.
(** What the calls in a history set and get back. *)
Definition set_by (e : nat * tcall * tres) : list theme := match e with (_, SetTheme (Some t), _) => [t] | _ => [] end.
Definition replaced (e : nat * tcall * tres) : list theme := match e with (_, SetTheme (Some _), RTheme p) => [p] | _ => [] end.
Definition only_sets (ps : list (list tcall)) : Prop := Forall (Forall (fun c => match c with SetTheme _ | Current => True | _ => False end)) ps.
(** Swapping themes loses and duplicates none: the replaced themes handed back, together with the current one, are the initial theme
    and the ones set, whatever the interleaving. *)
Theorem C117_swap : forall t0 ps m, only_sets ps -> mreach (MS t0 ps []) m -> Permutation (flat_map replaced (trace m) ++ [mcur m]) (t0 :: flat_map set_by (trace m)).
Proof.
  intros t0 ps m OS R. enough (only_sets (progs m) /\ Permutation (flat_map replaced (trace m) ++ [mcur m]) (t0 :: flat_map set_by (trace m))) by tauto.
  induction R as [|m m' R [IH1 IH2] S]; [split; [exact OS|cbn; constructor; constructor]|].
  destruct S as [cur ps' tr i c rest cur' r NE ME]. cbn [progs trace mcur] in *.
  assert (CR : Forall (fun c => match c with SetTheme _ | Current => True | _ => False end) (c :: rest)) by (unfold only_sets in IH1; rewrite Forall_forall in IH1; apply IH1; eapply nth_error_In; eauto).
  inversion_clear CR as [|? ? C1 C2]. split.
  - unfold only_sets in *. apply Forall_forall. intros x X. apply In_nth_error in X as (j & X). rewrite nth_error_set_nth in X. destruct (_ && _); [apply some_inj in X; subst; auto|]. rewrite Forall_forall in IH1. apply IH1. eapply nth_error_In; eauto.
  - rewrite !flat_map_app. destruct c as [[t|]| | | |]; try contradiction; cbn [manage] in ME; injection ME as <- <-; cbn [flat_map replaced set_by app]; rewrite ?app_nil_r; auto.
    rewrite <- app_assoc. cbn [app].
    apply (Permutation_trans (l' := (flat_map replaced tr ++ [cur]) ++ [t])); [rewrite <- app_assoc; apply Permutation_refl|].
    apply (Permutation_trans (l' := (t0 :: flat_map set_by tr) ++ [t])); [apply Permutation_app_tail; exact IH2|apply Permutation_refl].
Qed.
(** Every call returns, and leaves, what a sequential execution of the same calls in the order of the history would. *)
Fixpoint sequential (cur : theme) (h : list (nat * tcall * tres)) : Prop * theme :=
  match h with [] => (True, cur) | (_, c, r) :: h => let '(cur', r') := manage cur c in let '(P, f) := sequential cur' h in (r = r' /\ P, f) end.
Lemma sequential_app h1 : forall cur h2, snd (sequential cur (h1 ++ h2)) = snd (sequential (snd (sequential cur h1)) h2) /\ (fst (sequential cur h1) -> fst (sequential (snd (sequential cur h1)) h2) -> fst (sequential cur (h1 ++ h2))).
Proof.
  induction h1 as [|[[i c] r] h1 IH]; intros cur h2; [split; [reflexivity|auto]|]. cbn [app sequential]. destruct (manage cur c) as [cur' r']. specialize (IH cur' h2). destruct (sequential cur' h1) as [P f], (sequential cur' (h1 ++ h2)) as [Q g]. cbn [fst snd] in *. split; [tauto|]. intros [H1 H2] H3. split; tauto.
Qed.
Theorem C117_linearizable : forall t0 ps m, mreach (MS t0 ps []) m -> fst (sequential t0 (trace m)) /\ snd (sequential t0 (trace m)) = mcur m.
Proof.
  intros t0 ps m R. induction R as [|m m' R [IH1 IH2] S]; [split; [exact I|reflexivity]|].
  destruct S as [cur ps' tr i c rest cur' r NE ME]. cbn [progs trace mcur] in *. destruct (sequential_app tr t0 [(i, c, r)]) as [A1 A2]. rewrite A1. rewrite IH2 in *. cbn [sequential] in *. rewrite ME in *. cbn [fst snd] in *. split; [apply A2; auto|reflexivity].
Qed.
(** Presets are found by name in any mix of cases; an unknown name changes nothing and says so. *)
Theorem C117_presets : (forall t n cur, In t presets -> lower n = lower (tname t) -> manage cur (SetPreset n) = (t, RBool true)) /\
  (forall n cur, (forall t, In t presets -> lower n <> lower (tname t)) -> manage cur (SetPreset n) = (cur, RBool false)).
Proof.
  split.
  - intros t n cur T E. cbn [manage]. unfold preset_by_name. rewrite E. destruct T as [<-|[<-|[<-|[<-|[]]]]]; reflexivity.
  - intros n cur H. cbn [manage]. unfold preset_by_name.
    assert (forall k t, In (k, t) preset_keys -> list_eqb k (lower n) = false) as Q.
    { intros k t K. apply list_eqb_neq. intros E. apply (H t); [|rewrite <- E]; destruct K as [K|[K|[K|[K|[]]]]]; injection K as <- <-; try reflexivity; cbn; auto. }
    replace (find (fun p => list_eqb (fst p) (lower n)) preset_keys) with (@None (list Z * theme)); [reflexivity|]. unfold preset_keys in *. cbn [find fst]. rewrite !(Q _ default_theme), !(Q _ dark_theme), !(Q _ light_theme), !(Q _ contrast_theme) by (cbn; auto). reflexivity.
Qed.
Example C117_met : only_sets [[SetTheme (Some dark_theme); SetTheme None]; [SetTheme (Some light_theme)]] /\
  mreach (MS default_theme [[SetTheme (Some dark_theme)]; [SetTheme (Some light_theme)]] []) (MS dark_theme [[]; []] [(1%nat, SetTheme (Some light_theme), RTheme default_theme); (0%nat, SetTheme (Some dark_theme), RTheme light_theme)]) /\
  manage default_theme (SetPreset [72; 73; 71; 72; 67; 79; 78; 84; 82; 65; 83; 84]) = (contrast_theme, RBool true).
Proof.
  split; [repeat constructor|]. split; [|reflexivity]. eapply MNext; [eapply MNext; [constructor|]|].
  - apply (MStep default_theme [[SetTheme (Some dark_theme)]; [SetTheme (Some light_theme)]] [] 1%nat (SetTheme (Some light_theme)) []); reflexivity.
  - apply (MStep light_theme [[SetTheme (Some dark_theme)]; []] [(1%nat, SetTheme (Some light_theme), RTheme default_theme)] 0%nat (SetTheme (Some dark_theme)) []); reflexivity.
Qed.

(* ---------- C118 ---------- *)
(** A margin above or below a coloured frame: the blank lines are as wide as the frame's escape sequences are long. *)
Theorem C118_margin_refuted : forall sw, (forall l, Z.of_nat (length (filter (fun c => 32 <=? c) l)) <= sw l) -> (forall l, Forall (fun c => 32 <= c) l -> sw l = Z.of_nat (length l)) ->
  let s := styled [Border rounded; BorderColor (SyModel.Rgb 1 2 3); Margin 1 0 0 0] in
  exists e rest, lines (laid_out sw s [120]) = e :: rest /\ e = blanks (sw e) /\ 10 <= sw e /\ fst (outer_size sw s [120]) = 3.
Proof.
  intros sw LO HI s. assert (W1 : sw [120] = 1) by (rewrite HI by (repeat constructor; lia); reflexivity).
  assert (M : max_of sw (lines [120]) = 1) by (unfold LyModel.max_of; cbn [split_nl Z.eqb Pos.eqb fold_left]; rewrite W1; reflexivity).
  set (l1 := border_code TrueColor (SyModel.Rgb 1 2 3) ++ [9581; 9472; 9582] ++ reset).
  assert (L : exists rest, lines (laid_out sw s [120]) = blanks (sw l1) :: rest).
  { assert (EM : pad s = None /\ salign s = None /\ marg s = Some (Sp 1 0 0 0)) by (repeat split). destruct EM as (E1 & E2 & E3). unfold laid_out, apply_opt, apply_align. rewrite E1, E2, E3.
    assert (RB : render_border sw s [120] = join_nl (border_lines sw s rounded (lines [120]))) by reflexivity.
    assert (BL : border_lines sw s rounded (lines [120]) = l1 :: tl (border_lines sw s rounded (lines [120]))).
    { unfold border_lines. rewrite M. reflexivity. }
    rewrite RB. set (tls := tl (border_lines sw s rounded (lines [120]))) in *. rewrite BL.
    assert (TN : exists x r, tls = x :: r) by (unfold tls, border_lines; rewrite M; eexists _, _; reflexivity). destruct TN as (x & r & TN). rewrite TN. change (join_nl (l1 :: x :: r)) with (l1 ++ 10 :: join_nl (x :: r)).
    rewrite spacing_lines by (vm_compute; discriminate).
    assert (SP : lines (l1 ++ 10 :: join_nl (x :: r)) = l1 :: lines (join_nl (x :: r))) by (rewrite split_nl_app by (vm_compute; intuition discriminate); cbn [split_nl Z.eqb Pos.eqb]; rewrite app_nil_r; reflexivity).
    rewrite SP. cbn [map top bottom left right]. change (blanks 0) with (@nil Z). cbn [app]. rewrite app_nil_r. cbn [Z.to_nat Pos.to_nat Pos.iter_op Nat.add repeat app]. eexists. reflexivity. }
  destruct L as (rest & L). exists (blanks (sw l1)), rest. split; [exact L|].
  assert (P : 10 <= sw l1) by (pose proof (LO l1) as Q; assert (E : Z.of_nat (length (filter (fun c => 32 <=? c) l1)) = 18) by (vm_compute; reflexivity); lia).
  assert (SB : sw (blanks (sw l1)) = sw l1) by (rewrite HI; [rewrite rep_length; lia|apply Forall_forall; intros x X; apply In_rep in X; lia]).
  rewrite SB. split; [reflexivity|]. split; [exact P|]. unfold outer_size. rewrite M. reflexivity.
Qed.
(** Without a border colour the blank lines are as wide as the frame. *)
Theorem C50_margin : forall (sw : list Z -> Z) (thin : Z -> Prop) s b c p m w, (forall x, 0 <= sw x) -> thin 32 -> sw [] = 0 -> additive sw thin [] ->
  bord s = Some b -> bcolor s = None -> thin_border thin b -> sTop s = true -> sBottom s = true -> sLeft s = true -> sRight s = true ->
  salign s = None -> pad s = Some p -> marg s = Some m -> nonneg p -> nonneg m -> c <> [] ->
  (forall l, In l (lines c) -> additive sw thin l) -> widest sw (lines c) w ->
  forall l, In l (lines (laid_out sw s c)) -> sw l = left m + 1 + left p + w + right p + 1 + right m.
Proof. intros. eapply C50_size; eauto. Qed.

(* ---------- C119 ---------- *)
(** An empty text is neither padded nor given a margin. *)
Theorem C119_empty_refuted : (forall sw p, apply_spacing sw [] p = []) /\ render len (styled [Padding 1 2 1 2; Background (SyModel.Rgb 1 1 1); Capability NoColor]) [] = [] /\
  outer_size len (styled [Padding 1 2 1 2]) [] = (4, 3).
Proof. repeat split. Qed.
(** Any other text is. *)
Theorem C50_nonempty : forall (sw : list Z -> Z) (thin : Z -> Prop) c p, (forall x, 0 <= sw x) -> thin 32 -> sw [] = 0 -> additive sw thin [] ->
  c <> [] -> nonneg p -> (forall l, In l (lines c) -> additive sw thin l) -> Z.of_nat (length (lines (apply_spacing sw c p))) = top p + Z.of_nat (length (lines c)) + bottom p.
Proof. intros sw thin c p H1 H2 H3 H4 H5 H6 H7. destruct (C50_spacing sw thin c p H1 H2 H3 H4 H5 H6 H7) as (e & _ & _ & E & _). exact E. Qed.

Print Assumptions C115_merge. Print Assumptions C116_black_is_unset_refuted. Print Assumptions C115_replaces. Print Assumptions C117_swap.
Print Assumptions C117_linearizable. Print Assumptions C117_presets. Print Assumptions C118_margin_refuted. Print Assumptions C50_margin.
Print Assumptions C119_empty_refuted. Print Assumptions C50_nonempty.
