(** C284: end to end, what is typed into a focused text input is what the terminal shows. *)
From Verif Require Import Prelude Utf8 TermEmu RenderEmu InlineModel InlineSpec TruncProofs TruncItems InlineEmu InlineFrames InlineProps PdModel PdProps.
From Verif Require Import KeysModel KeysSpec KeysProofs KeysMixProps EeModel.
From Verif Require InModel InSpec InProofs SyModel SyProofs.
Import InModel(inp, content, cursor, sel, iwidth, focused).

(** ** Specification: a line editor *)
(** The text before and after the cursor. *)
Definition press (l : list Z * list Z) (k : stroke) : list Z * list Z :=
  let '(b, a) := l in
  match k with
  | Chr c =>
      if (c =? 127) || (c =? 8) then (removelast b, a)            (* Backspace *)
      else if c =? 21 then ([], [])                               (* Ctrl+U: clear *)
      else if c =? 5 then (b ++ a, [])                            (* Ctrl+E: to the end *)
      else if c <? 32 then (b, a)                                 (* Enter, Tab, unassigned *)
      else (b ++ [c], a)
  | Fun _ k =>
      match ktype k with
      | KLeft => match b with [] => (b, a) | _ => (removelast b, last b 0 :: a) end
      | KRight => match a with [] => (b, a) | x :: a' => (b ++ [x], a') end
      | KHome => ([], b ++ a)
      | KEnd => (b ++ a, [])
      | KDelete => (b, tl a)
      | _ => (b, a)
      end
  | Esc | Unk _ _ => (b, a)
  end.
Definition typed (ks : list stroke) : list Z * list Z := fold_left press ks ([], []).

(** Keystrokes considered: characters one column wide, Backspace, Ctrl+U, Ctrl+E, Enter, Tab, the unassigned
    control codes, every function key, Esc, and the sequences
    the library does not know. *)
Definition plain_stroke (k : stroke) : Prop :=
  match k with
  | Chr c => single_width c \/ In c [127; 8; 21; 5; 13; 10; 9; 0; 28; 29; 30; 31]
  | Fun d k => In (d, k) csi_keys
  | Esc => True
  | Unk ps f => stroke_ok (Unk ps f)
  end.

(** The text fits the input ([w] bytes) and, with the cursor, the terminal's row. *)
Definition line_fits (W w : Z) (l : list Z * list Z) : Prop :=
  let text := fst l ++ snd l in Z.of_nat (length (enc text)) <= w /\ Z.of_nat (length text) + 1 < W.

(** ** Proofs *)
Section Ee.
Variables (brk : list Z -> Z -> bool) (sw : list Z -> Z) (focus back : SyModel.color) (cw : Z -> Z) (zw : Z -> bool) (W H w : Z).
Hypothesis Hbrk : forall left c, single_width c -> brk left c = true.
Hypothesis Hcw : forall c, single_width c -> cw c = 1 /\ zw c = false.
Hypothesis Hfc : SyModel.color_ok focus.
Hypothesis Hbc : SyModel.color_ok back.

Lemma seg_single s : forall left x, Forall single_width s -> InModel.seg_from brk left [x] s = map (fun c => [c]) (x :: s).
Proof.
  induction s as [|c s IH]; intros left x Hs; [reflexivity|]. inversion Hs as [|? ? Hc Hs']; subst.
  cbn [InModel.seg_from]. rewrite (Hbrk left c Hc), IH by auto. reflexivity.
Qed.
Lemma gs_single s : Forall single_width s -> InModel.graphemes brk s = map (fun c => [c]) s.
Proof.
  intros Hs. destruct s as [|x s]; [reflexivity|]. inversion Hs; subst. unfold InModel.graphemes. cbn [InModel.seg_from]. apply seg_single; auto.
Qed.
Lemma gcount_single s : Forall single_width s -> InModel.gcount brk s = length s.
Proof. intros Hs. unfold InModel.gcount. rewrite gs_single, map_length; auto. Qed.

Lemma split_single b a : Forall single_width (b ++ a) -> InModel.split_at brk (b ++ a) (length b) = (b, firstn 1 a, tl a).
Proof.
  intros Hs. unfold InModel.split_at. rewrite gs_single, map_length, firstn_map, skipn_map, !InProofs.concat_single, InProofs.nth_single by auto.
  assert (E1 : firstn (length b) (b ++ a) = b) by (rewrite firstn_app, Nat.sub_diag, firstn_all; cbn [firstn]; apply app_nil_r).
  assert (E2 : skipn (length b) (b ++ a) = a) by (rewrite skipn_app, skipn_all, Nat.sub_diag; reflexivity).
  assert (E3 : skipn (S (length b)) (b ++ a) = tl a).
  { rewrite skipn_app, skipn_all2, (Nat.sub_succ_l (length b) (length b)), Nat.sub_diag by lia. destruct a; reflexivity. }
  rewrite E1, E2, E3, app_length. destruct a; cbn [length].
  - replace (_ <? _)%nat with false by lia. rewrite app_nil_r. reflexivity.
  - replace (_ <? _)%nat with true by lia. reflexivity.
Qed.

(** The input holds the line. *)
Record holds (t : inp) (l : list Z * list Z) : Prop := Holds {
  h_text : content t = fst l ++ snd l; h_cur : cursor t = length (fst l); h_sel : sel t = None; h_w : iwidth t = w; h_f : focused t = true;
  h_ok : Forall single_width (fst l ++ snd l) }.

Lemma removelast_len (b : list Z) : length (removelast b) = (length b - 1)%nat.
Proof. induction b as [|x [|y b] IH]; [reflexivity|reflexivity|]. change (removelast (x :: y :: b)) with (x :: removelast (y :: b)). cbn [length] in *. rewrite IH. lia. Qed.
Lemma removelast_firstn' (b : list Z) : firstn (length b - 1) b = removelast b.
Proof.
  induction b as [|x b IH]; [reflexivity|]. destruct b as [|y b]; [reflexivity|].
  change (removelast (x :: y :: b)) with (x :: removelast (y :: b)). rewrite <- IH. cbn [length Nat.sub firstn]. rewrite Nat.sub_0_r. reflexivity.
Qed.
Lemma move_to_ok n m : (n <= m)%nat -> InModel.move_to (Z.of_nat n) m = n.
Proof. intros Hn. unfold InModel.move_to, clampZ. lia. Qed.

Ltac solve_holds := constructor; cbn [InModel.put content cursor sel iwidth focused fst snd]; auto.

Lemma press_update t l k : holds t l -> plain_stroke k -> holds (fold_left (ee_update brk) (stroke_msgs k) t) (press l k).
Proof.
  intros [Ht Hc Hs Hw Hf Hok] Hk. destruct l as [b a]. cbn [fst snd] in *.
  assert (Hsel : InModel.has_sel t = false) by (unfold InModel.has_sel; rewrite Hs; reflexivity).
  assert (Hb : Forall single_width b) by (apply Forall_app in Hok; tauto). assert (Ha : Forall single_width a) by (apply Forall_app in Hok; tauto).
  assert (Hkeep : holds t (b, a)) by (constructor; auto).
  assert (Hend : holds (InModel.move_end brk t) (b ++ a, [])).
  { unfold InModel.move_end. solve_holds; rewrite ?app_nil_r; auto. rewrite Ht. apply gcount_single; auto. }
  assert (Hback : holds (InModel.delete_backward brk t) (removelast b, a)).
  { unfold InModel.delete_backward. rewrite Hsel, Hc. destruct b as [|x b'] eqn:Eb; [cbn; exact Hkeep|].
    rewrite <- Eb in *. assert (Hn : (length b =? 0)%nat = false) by (rewrite Eb; reflexivity). rewrite Hn, Ht, split_single by auto.
    assert (Hg : firstn (InModel.goffset brk b (InModel.gcount brk b - 1)) b = removelast b).
    { rewrite gcount_single by auto. unfold InModel.goffset. rewrite gs_single, map_length by auto.
      destruct (length b - 1 =? 0)%nat eqn:E0; [rewrite <- removelast_firstn'; f_equal; lia|].
      replace (length b - 1 <? length b)%nat with true by lia.
      rewrite firstn_map, InProofs.concat_single, firstn_length. replace (Nat.min (length b - 1) (length b)) with (length b - 1)%nat by lia. apply removelast_firstn'. }
    replace (match b with [] => [] | _ :: _ => firstn (InModel.goffset brk b (InModel.gcount brk b - 1)) b end) with (removelast b) by (rewrite <- Hg, Eb; reflexivity).
    assert (Hrb : Forall single_width (removelast b ++ a)).
    { rewrite <- removelast_firstn'. apply Forall_app. split; auto. rewrite <- (firstn_skipn (length b - 1) b) in Hb. apply Forall_app in Hb. tauto. }
    assert (Hsp : firstn 1 a ++ tl a = a) by (destruct a; reflexivity). rewrite Hsp.
    solve_holds. unfold InModel.move_by. rewrite gcount_single by auto.
    replace (Z.of_nat (length b) + -1) with (Z.of_nat (length b - 1)) by lia. rewrite move_to_ok, removelast_len; [reflexivity|]. rewrite app_length, removelast_len. lia. }
  assert (Hins : forall c, single_width c -> holds (InModel.insert_rune brk t c) (b ++ [c], a)).
  { intros c Hsc. unfold InModel.insert_rune. rewrite Hsel, Hc, Ht, split_single by auto.
    assert (Hsp : firstn 1 a ++ tl a = a) by (destruct a; reflexivity). rewrite Hsp.
    assert (Hn : Forall single_width (b ++ [c] ++ a)) by (rewrite !Forall_app; auto).
    solve_holds; rewrite <- ?app_assoc; auto. unfold InModel.move_by. rewrite gcount_single by auto.
    replace (Z.of_nat (length b) + 1) with (Z.of_nat (length b + 1)) by lia. rewrite move_to_ok; rewrite !app_length; cbn [length]; lia. }
  destruct k as [c|d k| |ps f]; cbn [stroke_msgs].
  - cbn [plain_stroke] in Hk. cbn [press].
    destruct Hk as [Hk|Hk].
    + assert (Hr : 32 <= c /\ c <> 127) by (unfold single_width in Hk; lia).
      replace ((c =? 127) || (c =? 8)) with false by lia. replace (c =? 21) with false by lia. replace (c =? 5) with false by lia. replace (c <? 32) with false by lia.
      unfold char_msgs. replace ((c =? 13) || (c =? 10)) with false by lia. replace ((c =? 127) || (c =? 8)) with false by lia.
      replace (c =? 9) with false by lia. replace ((1 <=? c) && (c <=? 26)) with false by lia. replace (c <? 32) with false by lia.
      destruct (c =? 32) eqn:E32; cbn [fold_left]; unfold ee_update, InModel.update; rewrite Hf.
      * assert (c = 32) by lia. subst c. apply (Hins 32 Hk).
      * apply (Hins c Hk).
    + cbn [In] in Hk. decompose [or] Hk; try contradiction; subst c; cbn [char_msgs Z.eqb Pos.eqb orb Z.ltb Z.compare Pos.compare Pos.compare_cont Z.leb andb fold_left]; unfold char_msgs; cbn [fold_left Z.eqb Pos.eqb orb andb Z.ltb Z.leb Z.compare Pos.compare Pos.compare_cont];
      unfold ee_update, InModel.update; rewrite ?Hf; try exact Hkeep; try exact Hback; try exact Hend.
      cbn. solve_holds. constructor.
  - cbn [fold_left press]. cbn [plain_stroke] in Hk. unfold ee_update, InModel.update. rewrite Hf.
    assert (Hct : kctrl k = false) by (cbn [csi_keys In] in Hk; decompose [or] Hk; try contradiction; match goal with X : _ = _ |- _ => injection X as <- <- end; reflexivity).
    unfold InModel.bind, to_ikey. cbn [InModel.ik_ctrl]. rewrite Hct. unfold InModel.by_type. cbn [InModel.ik_t InModel.ik_rune].
    assert (Hleft : holds (InModel.move_left_ brk t) (match b with [] => (b, a) | _ => (removelast b, last b 0 :: a) end)).
    { unfold InModel.move_left_, InModel.left_pos. rewrite Hc, Ht, gcount_single by auto. destruct b as [|x b'] eqn:Eb; [solve_holds|]. rewrite <- Eb in *.
      assert (E : removelast b ++ last b 0 :: a = b ++ a).
      { rewrite (app_removelast_last 0 (l := b)) at 3 by (rewrite Eb; discriminate). rewrite <- app_assoc. reflexivity. }
      assert (El : length b = S (length b - 1)) by (rewrite Eb; cbn; lia). rewrite El. solve_holds; rewrite ?E; auto.
      rewrite removelast_len, app_length. replace (_ <? _)%nat with true by lia. reflexivity. }
    assert (Hright : holds (InModel.move_right_ brk t) (match a with [] => (b, a) | x :: a' => (b ++ [x], a') end)).
    { unfold InModel.move_right_, InModel.right_pos. rewrite Hc, Ht, gcount_single by auto. destruct a as [|x a]; solve_holds; rewrite <- ?app_assoc; auto; rewrite ?app_length; cbn [length].
      - replace (_ <=? _)%nat with true by lia. lia.
      - replace (_ <=? _)%nat with false by lia. lia. }
    assert (Hhome : holds (InModel.move_home t) ([], b ++ a)) by (unfold InModel.move_home; solve_holds).
    assert (Hdel : holds (InModel.delete_forward_ brk t) (b, tl a)).
    { unfold InModel.delete_forward_. rewrite Hsel, Hc, Ht, gcount_single by auto. rewrite app_length. destruct a as [|x a]; cbn [length tl].
      - replace (_ <=? _)%nat with true by lia. exact Hkeep.
      - replace (_ <=? _)%nat with false by lia. rewrite split_single by auto. cbn [tl]. solve_holds. rewrite Forall_app in *. inversion Ha; subst. tauto. }
    destruct (ktype k) eqn:Ek; auto; exfalso;
    cbn [csi_keys In] in Hk; decompose [or] Hk; try contradiction; match goal with X : _ = _ |- _ => injection X as <- <- end; discriminate.
  - cbn [fold_left press]. unfold ee_update, InModel.update. rewrite Hf. exact Hkeep.
  - exact Hkeep.
Qed.

Definition rgb (n : Z) (c : SyModel.color) : list Z := SyModel.semi [n; 2; SyModel.cr c; SyModel.cg c; SyModel.cb c].
Definition shown (l : list Z * list Z) : list item :=
  map Ch (fst l) ++ SCsi (rgb 38 back) 109 :: SCsi (rgb 48 focus) 109 :: Ch (hd 32 (snd l)) :: SCsi [48] 109 :: map Ch (tl (snd l)).

Lemma line_chars s : line_bytes (map Ch s) = enc s.
Proof. induction s as [|c s IH]; [reflexivity|]. cbn [map]. rewrite line_bytes_cons, IH. reflexivity. Qed.
Lemma single_scalar c : single_width c -> scalar c.
Proof. unfold single_width, scalar. lia. Qed.
Lemma render_cell x : SyModel.render sw (cursor_style focus back) [x] = item_bytes (SCsi (rgb 38 back) 109) ++ item_bytes (SCsi (rgb 48 focus) 109) ++ [x] ++ item_bytes (SCsi [48] 109).
Proof. unfold SyModel.render. cbn -[SyModel.semi]. unfold rgb. rewrite <- ?app_assoc. cbn [app]. rewrite <- ?app_assoc. change (SyModel.semi [0]) with [48]. reflexivity. Qed.

Lemma rgb_digits n c : 0 <= n -> SyModel.color_ok c -> Forall (fun b => 48 <= b <= 57 \/ b = 59) (rgb n c).
Proof.
  intros Hn (H1 & H2 & H3). unfold rgb. cbn [SyModel.semi].
  assert (Hd : forall v, 0 <= v -> Forall (fun b => 48 <= b <= 57 \/ b = 59) (dec v)).
  { intros v Hv. destruct (dec_spec v Hv) as (_ & D & _). rewrite forallb_forall in D. rewrite Forall_forall. intros x Hx. specialize (D x Hx). unfold is_digit in D. lia. }
  repeat (rewrite Forall_app; split; [apply Hd; lia|]; try (constructor; [right; reflexivity|])). apply Hd; lia.
Qed.

Lemma shown_ok l : Forall single_width (fst l ++ snd l) -> Forall (show_ok cw (rdw zw)) (shown l).
Proof.
  intros Hs. apply Forall_app in Hs as [Hb Ha].
  assert (Hone : forall c, single_width c -> show_ok cw (rdw zw) (Ch c)).
  { intros c Hc. cbn [show_ok]. destruct (Hcw c Hc) as [E1 E2]. destruct (C12_character_widths zw c) as (_ & E3 & _). split; [apply single_scalar; auto|].
    unfold single_width in Hc. split; [lia|]. split; [lia|]. rewrite E1, E3; auto. }
  unfold shown. rewrite Forall_app. split; [rewrite Forall_map; eapply Forall_impl; [|exact Hb]; auto|].
  constructor; [split; [reflexivity|apply rgb_digits; [lia|auto]]|]. constructor; [split; [reflexivity|apply rgb_digits; [lia|auto]]|].
  constructor; [apply Hone; destruct (snd l); cbn [hd]; [unfold single_width; lia|inversion Ha; auto]|].
  constructor; [split; [reflexivity|repeat constructor; lia]|].
  rewrite Forall_map. destruct (snd l); cbn [tl]; [constructor|]. inversion Ha; subst. eapply Forall_impl; [|eassumption]. auto.
Qed.

Lemma visible_chars s : visible (map Ch s) = s.
Proof. induction s as [|c s IH]; [reflexivity|]. change (visible (map Ch (c :: s))) with (c :: visible (map Ch s)). now rewrite IH. Qed.
Lemma shown_visible l : visible (shown l) = fst l ++ hd 32 (snd l) :: tl (snd l).
Proof.
  unfold shown, visible. rewrite flat_map_app. fold (visible (map Ch (fst l))). rewrite visible_chars. cbn [flat_map item_chars app].
  fold (visible (map Ch (tl (snd l)))). rewrite visible_chars. reflexivity.
Qed.
Lemma shown_single l : Forall single_width (fst l ++ snd l) -> Forall single_width (visible (shown l)).
Proof.
  intros Hs. apply Forall_app in Hs as [Hb Ha]. rewrite shown_visible, Forall_app. split; auto. destruct (snd l); cbn [hd tl]; auto. constructor; auto. unfold single_width; lia.
Qed.
Lemma cols_single s : Forall single_width s -> cols (rdw zw) s = Z.of_nat (length s).
Proof.
  induction 1 as [|c s Hc Hs IH]; [reflexivity|]. unfold cols in *. cbn [fold_right]. rewrite IH. destruct (Hcw c Hc) as [_ E2]. destruct (C12_character_widths zw c) as (_ & E3 & _).
  rewrite E3 by auto. cbn [length]. lia.
Qed.

Lemma view_shown t l : holds t l -> line_fits W w l -> ee_view brk sw focus back t = view_bytes [shown l].
Proof.
  intros [Ht Hc Hs Hw Hf Hok] [F1 _]. destruct l as [b a]. cbn [fst snd] in *.
  unfold ee_view, InModel.render_content. rewrite Ht, Hc, split_single by auto.
  assert (Hsp : firstn 1 a ++ tl a = a) by (destruct a; reflexivity). rewrite Hsp. unfold InModel.bytes. rewrite Hw. replace (_ <=? w) with true by lia. rewrite Hf.
  cbn [view_bytes map join_nl]. unfold view_bytes. cbn [map join_nl]. unfold shown. cbn [fst snd].
  unfold line_bytes. rewrite flat_map_app. fold (line_bytes (map Ch b)). rewrite line_chars. f_equal.
  cbn [flat_map]. fold (line_bytes (map Ch (tl a))). rewrite line_chars. unfold render_cursor.
  assert (G : forall x, scalar x -> enc (SyModel.render sw (cursor_style focus back) [x]) =
     item_bytes (SCsi (rgb 38 back) 109) ++ item_bytes (SCsi (rgb 48 focus) 109) ++ item_bytes (Ch x) ++ item_bytes (SCsi [48] 109)).
  { intros x Hx. rewrite render_cell, !enc_app.
    assert (L : forall ps, Forall (fun b => 48 <= b <= 57 \/ b = 59) ps -> enc (item_bytes (SCsi ps 109)) = item_bytes (SCsi ps 109)).
    { intros ps Hp. apply (enc_low cw zw). cbn [item_bytes app]. apply Forall_cons; [lia|]. apply Forall_cons; [lia|]. rewrite Forall_app. split; [eapply Forall_impl; [|exact Hp]; cbn; lia|repeat constructor; lia]. }
    rewrite (L _ (rgb_digits 38 back ltac:(lia) Hbc)), (L _ (rgb_digits 48 focus ltac:(lia) Hfc)), (L [48]) by (repeat constructor; lia).
    cbn [enc flat_map item_bytes]. rewrite app_nil_r. reflexivity. }
  assert (Hx : scalar (hd 32 a)).
  { apply Forall_app in Hok as [_ Ha]. destruct a; cbn [hd]; [unfold scalar; lia|inversion Ha; subst; apply single_scalar; auto]. }
  assert (E : match enc (firstn 1 a) with [] => [32] | _ :: _ => runes_of (enc (firstn 1 a)) end = [hd 32 a]).
  { destruct a as [|x a]; [reflexivity|]. cbn [firstn enc flat_map hd] in *. rewrite app_nil_r. pose proof (enc_rune_ne x). destruct (enc_rune x) eqn:Ee; [congruence|]. rewrite <- Ee.
    change (enc_rune x) with (enc_rune x). pose proof (runes_of_enc [x] (Forall_cons _ Hx (Forall_nil _))) as R. cbn [enc flat_map] in R. rewrite app_nil_r in R. exact R. }
  rewrite E, G by auto. rewrite <- !app_assoc. reflexivity.
Qed.

(** Sessions whose views agree along the way write the same. *)
Lemma session_ext Mdl Msg (up : Mdl -> Msg -> Mdl) (v1 v2 : Mdl -> list Z) sz alt ms : forall p,
  (forall k, (0 < k)%nat -> v1 (fold_left up (firstn k ms) (mdl Mdl p)) = v2 (fold_left up (firstn k ms) (mdl Mdl p))) ->
  do_events zw Mdl Msg up v1 sz alt p (map Handle ms) = do_events zw Mdl Msg up v2 sz alt p (map Handle ms).
Proof.
  induction ms as [|a ms IH]; intros p Hv; [reflexivity|]. cbn [map do_events do_event].
  assert (E : handle zw Mdl Msg up v1 sz alt p a = handle zw Mdl Msg up v2 sz alt p a).
  { unfold handle, render_view. cbn [mdl rend susp]. pose proof (Hv 1%nat ltac:(lia)) as E1. cbn [firstn fold_left] in E1. rewrite E1. reflexivity. }
  rewrite E. destruct (handle zw Mdl Msg up v2 sz alt p a) as (p1, o1) eqn:Eh.
  assert (Hm : mdl Mdl p1 = up (mdl Mdl p) a).
  { unfold handle, render_view in Eh. cbn [mdl rend susp] in Eh. destruct alt; [injection Eh as <- _; reflexivity|]. destruct (irender _ _ _). injection Eh as <- _. reflexivity. }
  rewrite IH; [reflexivity|]. intros k Hk. rewrite Hm. apply (Hv (S k)). lia.
Qed.

Definition lns (t : inp) : list (list item) := [shown (firstn (cursor t) (content t), skipn (cursor t) (content t))].
Lemma lns_holds t l : holds t l -> lns t = [shown l].
Proof.
  intros [Ht Hc _ _ _ _]. unfold lns. rewrite Ht, Hc. destruct l as [b a]. cbn [fst snd] in *. rewrite firstn_app, skipn_app, Nat.sub_diag, firstn_all, skipn_all. cbn [firstn skipn app]. rewrite app_nil_r. reflexivity.
Qed.

Lemma strokes_update ks : forall t l, holds t l -> Forall plain_stroke ks -> holds (fold_left (ee_update brk) (flat_map stroke_msgs ks) t) (fold_left press ks l).
Proof.
  induction ks as [|k ks IH]; intros t l Hh Hk; [exact Hh|]. inversion Hk; subst. cbn [flat_map fold_left]. rewrite fold_left_app. apply IH; auto. apply press_update; auto.
Qed.
Lemma msgs_prefix ks : forall k, exists n, firstn k (flat_map stroke_msgs ks) = flat_map stroke_msgs (firstn n ks).
Proof.
  induction ks as [|s ks IH]; intros k; [exists 0%nat; destruct k; reflexivity|]. cbn [flat_map].
  assert (Hs1 : stroke_msgs s = [] \/ exists m, stroke_msgs s = [m]).
  { destruct s; cbn [stroke_msgs]; eauto. unfold char_msgs. repeat match goal with |- context [if ?b then _ else _] => destruct b; eauto end. }
  destruct Hs1 as [E|(m & E)]; rewrite E; cbn [app].
  - destruct (IH k) as (n & ->). exists (S n). cbn [firstn flat_map]. rewrite E. reflexivity.
  - destruct k as [|k]; [exists 0%nat; reflexivity|]. destruct (IH k) as (n & Hn). exists (S n). cbn [firstn flat_map]. rewrite E. cbn [app]. rewrite Hn. reflexivity.
Qed.

Definition line_ok (l : list item) : Prop := Forall (show_ok cw (rdw zw)) l /\ cols (rdw zw) (visible l) < W.
Lemma one_line_adm Mdl Msg (up : Mdl -> Msg -> Mdl) (f : Mdl -> list (list item)) ms : 1 <= H ->
  forall m prev, length prev = 1%nat -> (forall k, (0 < k)%nat -> exists l, f (fold_left up (firstn k ms) m) = [l] /\ line_ok l) ->
  adm cw zw W H 0 0 true prev (calls Mdl Msg up f (fun _ => None) m ms).
Proof.
  intros HH. induction ms as [|a ms IH]; intros m prev Hp Hf; [exact Logic.I|]. cbn [calls app adm].
  destruct (Hf 1%nat ltac:(lia)) as (l & E & Ok1 & Ok2). cbn [firstn fold_left] in E. rewrite E.
  change (keep 0 [l]) with [l]. change (fitted (rdw zw) 0) with (fun l : list item => l).
  split; [discriminate|]. split; [repeat constructor; auto|]. split; [cbn; lia|]. split; [repeat constructor; auto|]. split; [discriminate|].
  split; [intros _ Hl; rewrite Hp in Hl; cbn in Hl; lia|].
  apply IH; [reflexivity|]. intros k Hk. apply (Hf (S k)). lia.
Qed.

Theorem C284_typing_appears : forall t ks reads,
  (* the screen: a [W] x [H] terminal, the cursor at the start of a row, blank from there on *)
  tw t = W -> th t = H -> pst t = Ground -> pend t = false -> cx t = 0 -> 0 <= cy t < H ->
  (forall x y, 0 <= x < W -> cy t <= y < H -> cell2 (grid t x y) = blankc) ->
  (* the keystrokes and how they arrive *)
  1 <= w -> Forall plain_stroke ks -> arrives ks reads -> (forall n, line_fits W w (typed (firstn n ks))) ->
  let msgs := delivered reads in
  let m := fold_left (ee_update brk) msgs (ee_new brk w) in
  let t' := emu cw t (snd (session zw inp keymsg (ee_update brk) (ee_view brk sw focus back) (fun _ => None) false (ee_new brk w) (map Handle msgs))) in
  let '(before, after) := typed ks in
  content m = before ++ after /\ cursor m = length before /\
  exists row, 0 <= row <= cy t /\
    (forall x, 0 <= x < W -> cell2 (grid t' x row) = (nth (Z.to_nat x) (before ++ after) 32, Single)) /\
    (forall x y, 0 <= x < W -> row < y < H -> cell2 (grid t' x y) = blankc) /\
    (forall x y, 0 <= y < row -> grid t' x y = grid t x (y + (cy t - row))).
Proof.
  intros t ks reads T1 T2 T3 T4 T5 T6 T7 Hw Hk Har Hfit msgs m t'.
  assert (Hw1 : 1 < W) by (destruct (Hfit 0%nat) as [A B]; cbn in A, B; lia).
  assert (Em : msgs = flat_map stroke_msgs ks).
  { apply C283_keystrokes_delivered; auto. eapply Forall_impl; [|exact Hk]. intros [c|d k| |ps f] Hs; cbn [plain_stroke stroke_ok] in *; auto.
    destruct Hs as [Hs|Hs]; [split; [apply single_scalar; auto|unfold single_width in Hs; lia]|]. cbn [In] in Hs. unfold scalar. lia. }
  assert (H0 : holds (ee_new brk w) ([], [])).
  { unfold ee_new, InModel.new_inp. constructor; cbn; auto. replace (w <? 1) with false by lia. reflexivity. }
  assert (Hpre : forall n, holds (fold_left (ee_update brk) (flat_map stroke_msgs (firstn n ks)) (ee_new brk w)) (typed (firstn n ks))).
  { intros n. apply strokes_update; auto. rewrite <- (firstn_skipn n ks) in Hk. apply Forall_app in Hk. tauto. }
  assert (Hreach : forall k, exists n, holds (fold_left (ee_update brk) (firstn k msgs) (ee_new brk w)) (typed (firstn n ks))).
  { intros k. rewrite Em. destruct (msgs_prefix ks k) as (n & ->). exists n. apply Hpre. }
  assert (Hm : holds m (typed ks)).
  { unfold m. rewrite Em. pose proof (Hpre (length ks)) as Hp. rewrite firstn_all in Hp. exact Hp. }
  assert (Hview : forall k, ee_view brk sw focus back (fold_left (ee_update brk) (firstn k msgs) (ee_new brk w)) = view_bytes (lns (fold_left (ee_update brk) (firstn k msgs) (ee_new brk w)))).
  { intros k. destruct (Hreach k) as (n & Hn). rewrite (lns_holds _ _ Hn). apply view_shown; auto. }
  assert (Hline : forall k, exists l, lns (fold_left (ee_update brk) (firstn k msgs) (ee_new brk w)) = [l] /\ line_ok l).
  { intros k. destruct (Hreach k) as (n & Hn). rewrite (lns_holds _ _ Hn). eexists. split; [reflexivity|]. destruct Hn as [_ _ _ _ _ Hok]. split; [apply shown_ok; auto|].
    rewrite cols_single by (apply shown_single; auto). rewrite shown_visible, app_length. destruct (Hfit n) as [_ Hl]. rewrite app_length in Hl.
    destruct (snd (typed (firstn n ks))); cbn [hd tl length] in *; lia. }
  assert (Eo : session zw inp keymsg (ee_update brk) (ee_view brk sw focus back) (fun _ => None) false (ee_new brk w) (map Handle msgs) =
               session zw inp keymsg (ee_update brk) (fun t => view_bytes (lns t)) (fun _ => None) false (ee_new brk w) (map Handle msgs)).
  { unfold session. assert (Eb : begin zw inp (ee_view brk sw focus back) false (ee_new brk w) = begin zw inp (fun t => view_bytes (lns t)) false (ee_new brk w)).
    { unfold begin, render_view. cbn [mdl rend susp]. pose proof (Hview 0%nat) as E0. cbn [firstn fold_left] in E0. rewrite E0. reflexivity. }
    rewrite Eb. destruct (begin zw inp (fun t => view_bytes (lns t)) false (ee_new brk w)) as (p0, o0) eqn:E0.
    assert (Ep : mdl inp p0 = ee_new brk w).
    { unfold begin, render_view in E0. cbn [mdl rend susp] in E0. destruct (irender _ _ _). injection E0 as <- _. reflexivity. }
    rewrite (session_ext inp keymsg (ee_update brk) (ee_view brk sw focus back) (fun t => view_bytes (lns t)) (fun _ => None) false msgs p0); [reflexivity|].
    intros k _. rewrite Ep. apply Hview. }
  assert (Ead : adm cw zw W H 0 0 false [] (SRender (lns (ee_new brk w)) :: calls inp keymsg (ee_update brk) lns (fun _ => None) (ee_new brk w) msgs)).
  { cbn [adm]. destruct (Hline 0%nat) as (l & El & Ok1 & Ok2). cbn [firstn fold_left] in El. rewrite El.
    change (keep 0 [l]) with [l]. change (fitted (rdw zw) 0) with (fun l : list item => l).
    split; [discriminate|]. split; [repeat constructor; auto|]. split; [cbn; lia|]. split; [repeat constructor; auto|]. split; [congruence|]. split; [discriminate|].
    apply one_line_adm; [lia|reflexivity|]. intros k _. apply Hline. }
  pose proof (C255_screen_shows_the_model zw inp keymsg (ee_update brk) lns (fun _ => None) cw W H t (ee_new brk w) msgs ltac:(lia) T1 T2 T3 T4 T5 T6 T7 Ead) as C.
  cbn zeta in C. fold (current inp keymsg (ee_update brk) (ee_new brk w) msgs) in C.
  assert (Ean : announced keymsg (fun _ => None) msgs = (0, 0)).
  { unfold announced. generalize (0, 0). clear. induction msgs as [|a l IH]; intros z; [reflexivity|apply IH]. }
  rewrite Ean in C. destruct C as (row & R1 & R2 & R3).
  change (current inp keymsg (ee_update brk) (ee_new brk w) msgs) with m in R2. rewrite (lns_holds m _ Hm) in R2.
  change (keep 0 [shown (typed ks)]) with [shown (typed ks)] in R2.
  destruct (typed ks) as [b a] eqn:Et. destruct Hm as [M1 M2 _ _ _ Mok]. cbn [fst snd] in M1, M2, Mok.
  split; [exact M1|]. split; [exact M2|]. exists row. split; [exact R1|].
  assert (Et' : t' = emu cw t (snd (session zw inp keymsg (ee_update brk) (fun t => view_bytes (lns t)) (fun _ => None) false (ee_new brk w) (map Handle msgs)))) by (unfold t'; rewrite Eo; reflexivity).
  split; [|split].
  - intros x Hx. pose proof (R2 0%nat x Hx ltac:(lia)) as R. rewrite Z.add_0_r in R. rewrite Et'. rewrite R. cbn [map nth].
    change (fitted (rdw zw) 0 (shown (b, a))) with (shown (b, a)).
    assert (Hp : forall s, Forall single_width s -> paint cw s = map (fun c => (c, Single)) s).
    { induction 1 as [|c s Hc Hs IH]; [reflexivity|]. cbn [paint flat_map map]. destruct (Hcw c Hc) as [E1 _]. rewrite E1. cbn [Z.eqb Pos.eqb app]. f_equal. exact IH. }
    rewrite Hp by (apply shown_single; auto). rewrite shown_visible. cbn [fst snd].
    change blankc with ((fun c => (c, Single)) 32). rewrite map_nth. f_equal.
    destruct a as [|y a]; [|reflexivity]. cbn [hd tl]. rewrite app_nil_r. destruct (le_lt_dec (length b) (Z.to_nat x)) as [Hl|Hl].
    + rewrite (nth_overflow b) by auto. rewrite app_nth2 by auto. destruct (Z.to_nat x - length b)%nat as [|[|z]]; reflexivity.
    + rewrite app_nth1 by auto. reflexivity.
  - intros x y Hx Hy. pose proof (R2 (Z.to_nat (y - row)) x Hx ltac:(lia)) as R. replace (row + Z.of_nat (Z.to_nat (y - row))) with y in R by lia. rewrite Et'. rewrite R.
    assert (En : nth (Z.to_nat (y - row)) (map (fitted (rdw zw) 0) [shown (b, a)]) [] = []) by (destruct (Z.to_nat (y - row)) as [|[|z]] eqn:Ez; [lia|reflexivity|reflexivity]).
    rewrite En. apply nth_nil_blank.
  - intros x y Hy. rewrite Et'. apply R3. exact Hy.
Qed.
End Ee.

(** A case: "a", "b", Left, "c", "d", Backspace typed into an input of width 10 on an 8 x 3 terminal; the row
    shows "acb". *)
Definition case_ks : list stroke := [Chr 97; Chr 98; Fun [27; 91; 68] (plain KLeft); Chr 99; Chr 100; Chr 127].
Definition case_reads : list (list Z) := [[97; 98]; [27; 91; 68; 99]; [100; 127]].
Definition case_out : list Z := snd (session (fun _ => false) inp keymsg (ee_update InSpec.every)
  (ee_view InSpec.every (fun l => Z.of_nat (length l)) (SyModel.Rgb 1 2 3) (SyModel.Rgb 4 5 6)) (fun _ => None) false (ee_new InSpec.every 10) (map Handle (delivered case_reads))).
Example C284_case : Forall plain_stroke case_ks /\ arrives case_ks case_reads /\ (forall n, line_fits 8 10 (typed (firstn n case_ks))) /\
  typed case_ks = ([97; 99], [98]) /\
  map (fun x => tch (grid (emu (fun _ => 1) (blank_term 8 3 false) case_out) x 0)) [0; 1; 2; 3; 4] = [97; 99; 98; 32; 32].
Proof.
  split; [|split; [|split; [|split]]].
  - unfold case_ks. repeat (apply Forall_cons; [cbn [plain_stroke In csi_keys]; unfold single_width; try lia; auto 10|]). apply Forall_nil.
  - split; [reflexivity|]. intros pre k post Hk. unfold case_ks in Hk.
    destruct pre as [|a0 pre]; [injection Hk as <- <-; exact Logic.I|]. injection Hk as <- Hk.
    destruct pre as [|a1 pre]; [injection Hk as <- <-; exact Logic.I|]. injection Hk as <- Hk.
    destruct pre as [|a2 pre].
    { injection Hk as <- <-. intros i p Hp (a & b & Hab & Hl). subst i. cbn in Hl, Hp. unfold case_reads in Hab.
      destruct a as [|x0 a]; cbn [app] in Hab; [cbn in Hl; lia|]. injection Hab as <- Hab.
      destruct a as [|x1 a]; cbn [app] in Hab; [cbn in Hl; lia|]. injection Hab as <- Hab.
      cbn in Hl. lia. }
    injection Hk as <- Hk.
    destruct pre as [|a3 pre]; [injection Hk as <- <-; exact Logic.I|]. injection Hk as <- Hk.
    destruct pre as [|a4 pre]; [injection Hk as <- <-; exact Logic.I|]. injection Hk as <- Hk.
    destruct pre as [|a5 pre]; [injection Hk as <- <-; exact Logic.I|]. injection Hk as <- Hk. destruct pre; discriminate.
  - intros n. do 6 (destruct n as [|n]; [vm_compute; split; [discriminate|reflexivity]|]). destruct n; vm_compute; (split; [discriminate|reflexivity]).
  - reflexivity.
  - vm_compute. reflexivity.
Qed.

Print Assumptions C284_typing_appears.
