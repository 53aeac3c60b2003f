(** C361: end to end, the answer of a confirmation dialog is the button highlighted on the terminal. *)
From Coq Require Import String Ascii.
From Verif Require Import Prelude Utf8 TermEmu RenderEmu InlineModel InlineSpec TruncProofs TruncItems InlineEmu InlineFrames InlineProps PdModel PdProps.
From Verif Require Import KeysModel KeysSpec KeysProofs KeysMixProps EeProps TaEeProps CfModel CfProps CfEeModel.
Close Scope string_scope. Open Scope list_scope. Open Scope Z_scope.

(** ** Specification: what somebody in front of the terminal sees and does *)
Inductive answer := Yes | No | Cancelled.
(** The button that is highlighted (counted from 0) and the answer given, if any; [c] says that there is a Cancel button. *)
Definition dialog : Type := nat * option answer.
Definition choose (f : nat) : answer := match f with O => Yes | S O => No | _ => Cancelled end.
Definition tap (c : bool) (d : dialog) (k : stroke) : dialog :=
  match d with
  | (_, Some _) => d
  | (f, None) =>
      let n := if c then 3%nat else 2%nat in
      let next := if (S f =? n)%nat then O else S f in
      let prev := match f with O => pred n | S g => g end in
      match k with
      | Chr x =>
          if x =? 9 then (next, None)                                            (* Tab *)
          else if (x =? 13) || (x =? 10) then (f, Some (choose f))               (* Enter *)
          else if (x =? 121) || (x =? 89) then (O, Some Yes)                     (* y, Y *)
          else if (x =? 110) || (x =? 78) then (1%nat, Some No)                  (* n, N *)
          else if ((x =? 99) || (x =? 67)) && c then (2%nat, Some Cancelled)     (* c, C *)
          else d
      | Fun _ m => match ktype m with KLeft => (prev, None) | KRight => (next, None) | _ => d end
      | Esc => (f, Some Cancelled)
      | Unk _ _ => d
      end
  end.
(** A new dialog highlights No. *)
Definition tapped (c : bool) (ks : list stroke) : dialog := fold_left (tap c) ks (1%nat, None).
(** Any keys but Ctrl-C, Ctrl-N and Ctrl-Y (see C83) and the sequences that are not keys but longer than the library reads. *)
Definition dialog_stroke (k : stroke) : Prop := stroke_ok k /\ match k with Chr x => ~ In x [3; 14; 25] | _ => True end.
(** The button row for each highlighted button. *)
Definition button_text (c : bool) (f : nat) : list Z :=
  zs (match c, f with
      | false, O => "[ Yes ]  ( No )" | false, _ => "( Yes )  [ No ]"
      | true, O => "[ Yes ]  ( No )  ( Cancel )" | true, S O => "( Yes )  [ No ]  ( Cancel )" | true, _ => "( Yes )  ( No )  [ Cancel ]"
      end)%string.
(** The rows of the dialog: the title, the description if there is one, an empty row, the buttons. *)
Definition rows (c : bool) (title desc : list Z) (f : nat) : list (list Z) := title :: match desc with [] => [] | _ => [desc] end ++ [[]; button_text c f].
Definition as_result (a : option answer) : result := match a with None => RNone | Some Yes => RYes | Some No => RNo | Some Cancelled => RCanceled end.

(** ** Proofs *)
Lemma zs_plain s : Forall (fun a => 32 <= Z.of_N (N_of_ascii a) <= 126) (list_ascii_of_string s) -> Forall single_width (zs s).
Proof. intros H. unfold zs. apply Forall_map. eapply Forall_impl; [|exact H]. intros a A. left. exact A. Qed.
Lemma button_plain c f : Forall single_width (button_text c f).
Proof. destruct c, f as [|[|f]]; apply zs_plain; repeat (constructor; [cbn; lia|]); constructor. Qed.
Lemma button_len c f : (length (button_text c f) <= 27)%nat.
Proof. destruct c, f as [|[|f]]; cbn; lia. Qed.
Lemma button_enc c f : enc (button_text c f) = button_text c f.
Proof. destruct c, f as [|[|f]]; reflexivity. Qed.

Section CfEe.
Variables (cw : Z -> Z) (zw : Z -> bool) (W H : Z) (c : bool) (title desc : list Z).
Hypothesis Hcw : forall x, single_width x -> cw x = 1 /\ zw x = false.
Hypothesis Ht : Forall single_width title.
Hypothesis Hd : Forall single_width desc.

Notation labels := (if c then [l_yes; l_no; l_cancel] else [l_yes; l_no]).
(** The component is in the state the spectator thinks it is. *)
Definition shows (p : pub) (d : dialog) : Prop :=
  ptitle p = enc title /\ pdesc p = enc desc /\ (fst d < if c then 3 else 2)%nat /\
  dom p = Cf labels (Z.of_nat (fst d)) (as_result (snd d)) (match snd d with None => false | Some _ => true end).
Lemma shows_new : shows (ce_new (enc title) (enc desc) c) (1%nat, None).
Proof using. clear. split; [reflexivity|]. split; [reflexivity|]. split; [destruct c; cbn; lia|]. destruct c; reflexivity. Qed.

Lemma key_shows p d k d' : shows p d -> (fst d' < if c then 3 else 2)%nat ->
  fst (handle (dom p) k) = Cf labels (Z.of_nat (fst d')) (as_result (snd d')) (match snd d' with None => false | Some _ => true end) -> shows (ce_update p k) d'.
Proof using. clear. intros (A & B & _ & _) L E. split; [exact A|]. split; [exact B|]. split; [exact L|exact E]. Qed.
Lemma done_shows p f a k : shows p (f, Some a) -> shows (ce_update p k) (f, Some a).
Proof using. clear. intros S. apply (key_shows p (f, Some a)); auto; [apply S|]. destruct S as (_ & _ & _ & ->). reflexivity. Qed.
Lemma same_shows p f k : shows p (f, None) -> handle (dom p) k = (dom p, None) -> shows (ce_update p k) (f, None).
Proof using. clear. intros S E. apply (key_shows p (f, None)); auto; [apply S|]. rewrite E. apply S. Qed.

Ltac by_cases f := destruct c, f as [|[|[|f]]]; try lia; cbn; try lia; reflexivity.
Lemma tap_shows p d k : shows p d -> dialog_stroke k -> shows (fold_left ce_update (stroke_msgs k) p) (tap c d k).
Proof using.
  clear. intros S [K1 K2]. destruct d as [f [a|]].
  { cbn [tap]. generalize (stroke_msgs k). intros l. revert p S. induction l as [|m l IH]; intros p S; [exact S|]. apply IH, done_shows, S. }
  pose proof S as (_ & _ & Lf & Ed). cbn [fst snd] in Lf, Ed. cbn [as_result] in Ed.
  assert (St : std (dom p)) by (rewrite Ed; split; cbn [buttons foc]; destruct c; cbn; auto; lia).
  assert (Nd : done (dom p) = false) by (rewrite Ed; reflexivity).
  destruct k as [x|b m| |ps g]; cbn [stroke_msgs tap].
  - unfold char_msgs. destruct (x =? 9) eqn:E9.
    { apply Z.eqb_eq in E9. subst x. cbn [Z.eqb Pos.eqb orb fold_left]. apply (key_shows p (f, None)); auto; cbn [fst snd]; [by_cases f|]. rewrite Ed. by_cases f. }
    destruct ((x =? 13) || (x =? 10)) eqn:E13.
    { cbn [fold_left]. apply (key_shows p (f, None)); auto. rewrite Ed. by_cases f. }
    destruct ((x =? 127) || (x =? 8)) eqn:E127.
    { replace ((x =? 121) || (x =? 89)) with false by lia. replace ((x =? 110) || (x =? 78)) with false by lia. replace ((x =? 99) || (x =? 67)) with false by lia.
      cbn [fold_left andb]. apply same_shows; auto. rewrite Ed. reflexivity. }
    destruct (x =? 32) eqn:E32.
    { replace ((x =? 121) || (x =? 89)) with false by lia. replace ((x =? 110) || (x =? 78)) with false by lia. replace ((x =? 99) || (x =? 67)) with false by lia.
      cbn [fold_left andb]. apply same_shows; auto. rewrite Ed. reflexivity. }
    pose proof (C38_answers (dom p) St Nd) as (_ & _ & _ & _ & _ & Oth).
    destruct ((1 <=? x) && (x <=? 26)) eqn:Ec.
    { replace ((x =? 121) || (x =? 89)) with false by lia. replace ((x =? 110) || (x =? 78)) with false by lia. replace ((x =? 99) || (x =? 67)) with false by lia.
      cbn [fold_left andb]. apply same_shows; auto.
      assert (O : handle (dom p) (rune_key (96 + x)) = (dom p, None)).
      { apply Oth. cbn [In] in *. lia. }
      exact O. }
    destruct (x <? 32) eqn:El.
    { replace ((x =? 121) || (x =? 89)) with false by lia. replace ((x =? 110) || (x =? 78)) with false by lia. replace ((x =? 99) || (x =? 67)) with false by lia.
      exact S. }
    cbn [fold_left].
    destruct ((x =? 121) || (x =? 89)) eqn:Ey.
    { apply (key_shows p (f, None)); auto; cbn [fst snd]; [destruct c; lia|]. rewrite Ed. apply orb_true_iff in Ey as [E|E]; apply Z.eqb_eq in E; subst x; destruct c; reflexivity. }
    destruct ((x =? 110) || (x =? 78)) eqn:En.
    { apply (key_shows p (f, None)); auto; cbn [fst snd]; [destruct c; lia|]. rewrite Ed. apply orb_true_iff in En as [E|E]; apply Z.eqb_eq in E; subst x; destruct c; reflexivity. }
    destruct ((x =? 99) || (x =? 67)) eqn:Ek.
    { cbn [andb]. destruct c eqn:Ecc.
      - apply (key_shows p (f, None)); auto; cbn [fst snd]; [rewrite Ecc; lia|]. rewrite Ed, Ecc. apply orb_true_iff in Ek as [E|E]; apply Z.eqb_eq in E; subst x; reflexivity.
      - apply same_shows; auto. rewrite Ed. apply orb_true_iff in Ek as [E|E]; apply Z.eqb_eq in E; subst x; reflexivity. }
    cbn [andb]. apply same_shows; auto. exact (Oth x ltac:(cbn [In]; lia)).
  - cbn [fold_left]. cbn [stroke_ok] in K1.
    assert (Hsh : ktype m <> KTab /\ ktype m <> KEnter /\ ktype m <> KEsc /\ ktype m <> KCtrlC /\ ktype m <> KRune).
    { cbn [csi_keys In] in K1. decompose [or] K1; try contradiction; match goal with X : _ = _ |- _ => injection X as <- <- end; repeat split; discriminate. }
    destruct Hsh as (H1 & H2 & H3 & H4 & H5).
    destruct (ktype m) eqn:Em; try congruence; try (apply same_shows; auto; unfold handle; rewrite Nd, Em; reflexivity);
      (apply (key_shows p (f, None)); auto; cbn [fst snd]; [by_cases f|]; unfold handle; rewrite Nd, Em; cbn [fst]; rewrite Ed; by_cases f).
  - cbn [fold_left]. apply (key_shows p (f, None)); auto. rewrite Ed. reflexivity.
  - exact S.
Qed.
Lemma taps_show ks : forall p d, shows p d -> Forall dialog_stroke ks -> shows (fold_left ce_update (flat_map stroke_msgs ks) p) (fold_left (tap c) ks d).
Proof using.
  clear. induction ks as [|k ks IH]; intros p d S F; [exact S|]. inversion F; subst. cbn [flat_map fold_left]. rewrite fold_left_app. apply IH; auto. apply tap_shows; auto.
Qed.

Definition lns (p : pub) : list (list item) := map (map Ch) (rows c title desc (Z.to_nat (foc (dom p)))).
Lemma lns_shows p d : shows p d -> lns p = map (map Ch) (rows c title desc (fst d)).
Proof using. clear. intros (_ & _ & _ & E). unfold lns. rewrite E. cbn [foc]. now rewrite Nat2Z.id. Qed.
Lemma buttons_drawn f : (f < if c then 3 else 2)%nat -> rbuttons labels 0 (Z.of_nat f) = button_text c f.
Proof using. clear. intros L. destruct c, f as [|[|[|f]]]; try lia; reflexivity. Qed.
Lemma view_lines p d : shows p d -> pview p = view_bytes (lns p).
Proof using.
  clear.
  intros S. rewrite (lns_shows p d S). destruct S as (E1 & E2 & L & E3). unfold pview. rewrite E1, E2, E3. cbn [buttons foc]. rewrite (buttons_drawn _ L).
  unfold view_bytes, rows. rewrite map_map. destruct desc as [|x r] eqn:Ex.
  - cbn [app map join_nl]. rewrite !line_chars, button_enc. reflexivity.
  - assert (Ne : (length (enc (x :: r)) =? 0)%nat = false).
    { cbn [enc flat_map]. rewrite app_length. pose proof (enc_rune_ne x). destruct (enc_rune x); [congruence|reflexivity]. }
    rewrite Ne. cbn [negb app map join_nl]. change (Ch x :: map Ch r) with (map Ch (x :: r)). rewrite !line_chars, button_enc. rewrite <- !app_assoc. reflexivity.
Qed.

Lemma rows_single f : Forall (Forall single_width) (rows c title desc f).
Proof using Ht Hd.
  unfold rows. constructor; [exact Ht|]. apply Forall_app. split; [destruct desc; [constructor|constructor; [exact Hd|constructor]]|]. constructor; [constructor|]. constructor; [apply button_plain|constructor].
Qed.
Lemma rows_len f g : length (rows c title desc f) = length (rows c title desc g).
Proof using. clear. unfold rows. cbn [length]. rewrite !app_length. reflexivity. Qed.
Hypothesis HW : Z.of_nat (length title) < W /\ Z.of_nat (length desc) < W /\ 28 <= W.
Hypothesis HH : (if desc then 3 else 4) <= H.

Definition frame_ok (v : list (list item)) : Prop :=
  v <> [] /\ Forall (Forall (show_ok cw (rdw zw))) v /\ Z.of_nat (length v) <= H /\ Forall (fun l => cols (rdw zw) (visible l) < W) v.
Lemma rows_frame f : frame_ok (map (map Ch) (rows c title desc f)).
Proof using All.
  pose proof (rows_single f) as Sg. split; [discriminate|]. split; [|split].
  - apply Forall_map. eapply Forall_impl; [|exact Sg]. intros l Hl. apply chars_ok; auto.
  - rewrite map_length. unfold rows. cbn [length]. rewrite app_length. cbn [length]. destruct desc; cbn [length]; lia.
  - apply Forall_map. rewrite Forall_forall in *. intros l Il. rewrite visible_chars. rewrite (cols_single InSpec.every (fun l => Z.of_nat (length l)) cw zw every_single Hcw) by (apply Sg; exact Il).
    unfold rows in Il. destruct Il as [<-|Il]; [lia|]. apply in_app_iff in Il as [Il|[<-|[<-|[]]]]; [destruct desc as [|y r] eqn:Ey; [destruct Il|destruct Il as [<-|[]]; lia]|cbn; lia|pose proof (button_len c f); lia].
Qed.
Lemma same_height_adm Mdl Msg (up : Mdl -> Msg -> Mdl) (f : Mdl -> list (list item)) n ms :
  forall m prev, length prev = n -> (forall k, (0 < k)%nat -> length (f (fold_left up (firstn k ms) m)) = n /\ frame_ok (f (fold_left up (firstn k ms) m))) ->
  adm cw zw W H 0 0 true prev (calls Mdl Msg up f (fun _ => None) m ms).
Proof using.
  clear Hcw Ht Hd HW HH. induction ms as [|a ms IH]; intros m prev Hp Hf; [exact Logic.I|]. cbn [calls app adm].
  destruct (Hf 1%nat ltac:(lia)) as (E & O1 & O2 & O3 & O4). cbn [firstn fold_left] in *. change (keep 0 (f (up m a))) with (f (up m a)). change (fitted (rdw zw) 0) with (fun l : list item => l).
  split; [exact O1|]. split; [exact O2|]. split; [exact O3|]. split; [exact O4|]. split; [discriminate|]. split; [intros _ Hl; lia|].
  apply IH; [exact E|]. intros k Hk. apply (Hf (S k)). lia.
Qed.

Theorem C361_highlighted_button_is_the_answer : forall t ks reads,
  (* the screen: a [W] x [H] terminal, the cursor at the start of a row, blank from there on *)
  tw t = W -> th t = H -> pst t = Ground -> pend t = false -> cx t = 0 -> 0 <= cy t < H ->
  (forall x y, 0 <= x < W -> cy t <= y < H -> cell2 (grid t x y) = blankc) ->
  (* the keystrokes and how they arrive *)
  Forall dialog_stroke ks -> arrives ks reads ->
  let msgs := delivered reads in
  let m := fold_left ce_update msgs (ce_new (enc title) (enc desc) c) in
  let t' := emu cw t (snd (session zw pub keymsg ce_update pview (fun _ => None) false (ce_new (enc title) (enc desc) c) (map Handle msgs))) in
  let '(f, ans) := tapped c ks in
  done (dom m) = (match ans with None => false | Some _ => true end) /\ res (dom m) = as_result ans /\
  exists row, 0 <= row <= cy t /\
    (forall j x, 0 <= x < W -> row + Z.of_nat j < H -> cell2 (grid t' x (row + Z.of_nat j)) = (nth (Z.to_nat x) (nth j (rows c title desc f) []) 32, Single)) /\
    (forall x y, 0 <= y < row -> grid t' x y = grid t x (y + (cy t - row))).
Proof using All.
  intros t ks reads T1 T2 T3 T4 T5 T6 T7 Hk Har msgs m t'.
  set (m0 := ce_new (enc title) (enc desc) c) in *.
  assert (Em : msgs = flat_map stroke_msgs ks) by (apply C283_keystrokes_delivered; auto; eapply Forall_impl; [|exact Hk]; intros k [A _]; exact A).
  assert (Hpre : forall n, shows (fold_left ce_update (flat_map stroke_msgs (firstn n ks)) m0) (tapped c (firstn n ks))).
  { intros n. apply taps_show; [apply shows_new|]. rewrite <- (firstn_skipn n ks) in Hk. apply Forall_app in Hk. tauto. }
  assert (Hreach : forall k, exists d, shows (fold_left ce_update (firstn k msgs) m0) d).
  { intros k. rewrite Em. destruct (msgs_prefix ks k) as (n & ->). eexists. apply Hpre. }
  assert (Hm : shows m (tapped c ks)) by (unfold m; rewrite Em; pose proof (Hpre (length ks)) as Hp; rewrite firstn_all in Hp; exact Hp).
  assert (Hview : forall k, pview (fold_left ce_update (firstn k msgs) m0) = view_bytes (lns (fold_left ce_update (firstn k msgs) m0))).
  { intros k. destruct (Hreach k) as (d & Hs). eapply view_lines; eauto. }
  assert (Hline : forall k, length (lns (fold_left ce_update (firstn k msgs) m0)) = length (rows c title desc 0) /\ frame_ok (lns (fold_left ce_update (firstn k msgs) m0))).
  { intros k. destruct (Hreach k) as (d & Hs). rewrite (lns_shows _ _ Hs). split; [rewrite map_length; apply rows_len|apply rows_frame]. }
  assert (Eo : session zw pub keymsg ce_update pview (fun _ => None) false m0 (map Handle msgs) =
               session zw pub keymsg ce_update (fun p => view_bytes (lns p)) (fun _ => None) false m0 (map Handle msgs)).
  { unfold session. assert (Eb : begin zw pub pview false m0 = begin zw pub (fun p => view_bytes (lns p)) false m0).
    { unfold begin, render_view. cbn [mdl rend susp]. pose proof (Hview 0%nat) as E0. cbn [firstn fold_left] in E0. rewrite E0. reflexivity. }
    rewrite Eb. destruct (begin zw pub (fun p => view_bytes (lns p)) false m0) as (p0, o0) eqn:E0.
    assert (Ep : mdl pub p0 = m0).
    { unfold begin, render_view in E0. cbn [mdl rend susp] in E0. destruct (irender _ _ _). injection E0 as <- _. reflexivity. }
    rewrite (session_ext InSpec.every (fun l => Z.of_nat (length l)) cw zw W every_single Hcw pub keymsg ce_update pview (fun p => view_bytes (lns p)) (fun _ => None) false msgs p0); [reflexivity|].
    intros k _. rewrite Ep. apply Hview. }
  assert (Ead : adm cw zw W H 0 0 false [] (SRender (lns m0) :: calls pub keymsg ce_update lns (fun _ => None) m0 msgs)).
  { cbn [adm]. destruct (Hline 0%nat) as (El & O1 & O2 & O3 & O4). cbn [firstn fold_left] in *.
    change (keep 0 (lns m0)) with (lns m0). change (fitted (rdw zw) 0) with (fun l : list item => l).
    split; [exact O1|]. split; [exact O2|]. split; [exact O3|]. split; [exact O4|]. split; [congruence|]. split; [discriminate|].
    eapply same_height_adm; [exact El|]. intros k _. apply Hline. }
  pose proof (C255_screen_shows_the_model zw pub keymsg ce_update lns (fun _ => None) cw W H t m0 msgs ltac:(lia) T1 T2 T3 T4 T5 T6 T7 Ead) as C.
  cbn zeta in C. fold (current pub keymsg ce_update m0 msgs) in C.
  assert (Ean : announced keymsg (fun _ => None) msgs = (0, 0)).
  { unfold announced. generalize (0, 0). clear. induction msgs as [|a l IH]; intros z; [reflexivity|apply IH]. }
  rewrite Ean in C. destruct C as (row & R1 & R2 & R3).
  change (current pub keymsg ce_update m0 msgs) with m in R2. rewrite (lns_shows m _ Hm) in R2.
  destruct (tapped c ks) as [f ans] eqn:Et. cbn [fst] in R2. pose proof Hm as (_ & _ & _ & Ed). cbn [fst snd] in Ed.
  split; [rewrite Ed; reflexivity|]. split; [rewrite Ed; reflexivity|]. exists row. split; [exact R1|].
  assert (Et' : t' = emu cw t (snd (session zw pub keymsg ce_update (fun p => view_bytes (lns p)) (fun _ => None) false m0 (map Handle msgs)))) by (unfold t'; rewrite Eo; reflexivity).
  split.
  - intros j x Hx Hj. pose proof (R2 j x Hx Hj) as R. rewrite Et', R.
    change (keep 0 (map (map Ch) (rows c title desc f))) with (map (map Ch) (rows c title desc f)). change (fitted (rdw zw) 0) with (fun l : list item => l). rewrite map_id.
    assert (Hp : forall s, Forall single_width s -> paint cw s = map (fun c => (c, Single)) s).
    { clear -Hcw. intros s Hs0. induction Hs0 as [|y s Hy Hs IH]; [reflexivity|]. cbn [paint flat_map map]. destruct (Hcw y Hy) as [E1 _]. rewrite E1. cbn [Z.eqb Pos.eqb app]. f_equal. exact IH. }
    change (@nil item) with (map Ch []). rewrite (map_nth (map Ch)). rewrite visible_chars, Hp.
    + change blankc with ((fun c => (c, Single)) 32). now rewrite map_nth.
    + pose proof (rows_single f) as Sg. rewrite Forall_forall in Sg. destruct (nth_in_or_default j (rows c title desc f) []) as [I|E]; [apply Sg; exact I|rewrite E; constructor].
  - intros x y Hy. rewrite Et'. apply R3. exact Hy.
Qed.
End CfEe.

(** A case: "Save?" with a Cancel button on a 30 x 4 terminal; Right, Tab, Left pressed, arriving in two reads: the last button is highlighted
    after Right, the first after Tab, the last again after Left; Enter then answers Cancel. *)
Definition cf_case : list stroke := [Fun [27; 91; 67] (named KRight); Chr 9; Fun [27; 91; 68] (named KLeft)].
Definition cf_screen (reads : list (list Z)) : term :=
  emu (fun _ => 1) (blank_term 30 4 false) (snd (session (fun _ => false) pub keymsg ce_update pview (fun _ => None) false (ce_new (zs "Save?") [] true) (map Handle (delivered reads)))).
Example C361_case : Forall dialog_stroke (cf_case ++ [Chr 13]) /\ arrives (cf_case ++ [Chr 13]) (map stroke_bytes (cf_case ++ [Chr 13])) /\
  map (fun n => fst (tapped true (firstn n cf_case))) [0; 1; 2; 3]%nat = [1; 2; 0; 2]%nat /\ tapped true (cf_case ++ [Chr 13]) = (2%nat, Some Cancelled) /\
  map (fun x => tch (grid (cf_screen (map stroke_bytes cf_case)) (Z.of_nat x) 2)) (seq 0 28) = zs "( Yes )  ( No )  [ Cancel ] ".
Proof.
  split; [|split; [|split; [|split]]].
  - repeat (constructor; [split; [cbn; unfold scalar; try lia; auto 10|cbn; try lia; try exact Logic.I]|]). constructor.
  - apply own_reads_arrive.
  - reflexivity.
  - reflexivity.
  - vm_compute. reflexivity.
Qed.

Print Assumptions C361_highlighted_button_is_the_answer.
