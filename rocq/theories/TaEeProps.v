(** C340, C341: end to end, what is typed into a text area is what the terminal shows. *)
From Verif Require Import Prelude Utf8 TermEmu RenderEmu InlineModel InlineSpec TruncProofs TruncItems InlineEmu InlineFrames InlineProps PdModel PdProps.
From Verif Require Import KeysModel KeysSpec KeysProofs KeysMixProps EeProps TaEeModel.
From Verif Require TaModel TaProofs TaViewModel InSpec.
Import TaModel(buf, row, col, conf, srow, Cfg). Import TaViewModel(area, core, nums, curs, ph).

(** ** Specification: a plain editor *)
(** The lines above, the text of the cursor's line before and behind the cursor, the lines below. *)
Definition doc : Type := (list (list Z) * list Z * list Z * list (list Z))%type.
Definition lines_of (d : doc) : list (list Z) := let '(u, l, r, b) := d in u ++ (l ++ r) :: b.
Definition row_of (d : doc) : nat := let '(u, l, r, b) := d in length u.
Definition col_of (d : doc) : nat := let '(u, l, r, b) := d in length l.
Definition left_key (d : doc) : doc :=
  let '(u, l, r, b) := d in
  match l, u with
  | _ :: _, _ => (u, removelast l, last l 0 :: r, b)
  | [], _ :: _ => (removelast u, last u [], [], r :: b)
  | [], [] => d
  end.
Definition right_key (d : doc) : doc :=
  let '(u, l, r, b) := d in
  match r, b with
  | x :: r', _ => (u, l ++ [x], r', b)
  | [], n :: b' => (u ++ [l], [], n, b')
  | [], [] => d
  end.
(** Up and Down keep the column, or go to the end of a shorter line. *)
Definition up_key (d : doc) : doc :=
  let '(u, l, r, b) := d in match u with [] => d | _ => (removelast u, firstn (length l) (last u []), skipn (length l) (last u []), (l ++ r) :: b) end.
Definition down_key (d : doc) : doc :=
  let '(u, l, r, b) := d in match b with [] => d | n :: b' => (u ++ [l ++ r], firstn (length l) n, skipn (length l) n, b') end.
Definition backspace_key (d : doc) : doc :=
  let '(u, l, r, b) := d in
  match l, u with
  | _ :: _, _ => (u, removelast l, r, b)
  | [], _ :: _ => (removelast u, last u [], r, b)
  | [], [] => d
  end.
Definition delete_key (d : doc) : doc :=
  let '(u, l, r, b) := d in
  match r, b with
  | _ :: r', _ => (u, l, r', b)
  | [], n :: b' => (u, l, n, b')
  | [], [] => d
  end.
Definition home_key (d : doc) : doc := let '(u, l, r, b) := d in (u, [], l ++ r, b).
Definition end_key (d : doc) : doc := let '(u, l, r, b) := d in (u, l ++ r, [], b).
Definition enter_key (d : doc) : doc := let '(u, l, r, b) := d in (u ++ [l], [], r, b).
Definition type_key (c : Z) (d : doc) : doc := let '(u, l, r, b) := d in (u, l ++ [c], r, b).
Definition hit (d : doc) (k : stroke) : doc :=
  match k with
  | Chr c =>
      if (c =? 127) || (c =? 8) then backspace_key d
      else if (c =? 13) || (c =? 10) then enter_key d
      else if c =? 1 then home_key d          (* Ctrl+A *)
      else if c =? 2 then left_key d          (* Ctrl+B *)
      else if c =? 4 then delete_key d        (* Ctrl+D *)
      else if c =? 5 then end_key d           (* Ctrl+E *)
      else if c =? 6 then right_key d         (* Ctrl+F *)
      else if c =? 14 then down_key d         (* Ctrl+N *)
      else if c =? 16 then up_key d           (* Ctrl+P *)
      else if c <? 32 then d                  (* Tab and those without a meaning *)
      else type_key c d
  | Fun _ k =>
      match ktype k with
      | KLeft => left_key d | KRight => right_key d | KUp => up_key d | KDown => down_key d
      | KHome => home_key d | KEnd => end_key d | KDelete => delete_key d
      | _ => d
      end
  | Esc | Unk _ _ => d
  end.
Definition empty_doc : doc := ([], [], [], []).
Definition written (ks : list stroke) : doc := fold_left hit ks empty_doc.

(** Keystrokes considered: characters one column wide; all control characters but Ctrl+K, U, W and Y (the kill ring); function
    keys; Esc; unknown sequences. *)
Definition editor_stroke (k : stroke) : Prop :=
  match k with
  | Chr c => single_width c \/ (0 <= c < 32 /\ ~ In c [11; 21; 23; 25; 27]) \/ c = 127
  | Fun d k => In (d, k) csi_keys
  | Esc => True
  | Unk ps f => stroke_ok (Unk ps f)
  end.
(** The lines fit the area's height and the terminal, with room for the cursor at the end of a line. *)
Definition doc_fits (W H h : Z) (d : doc) : Prop :=
  Z.of_nat (length (lines_of d)) <= h /\ Z.of_nat (length (lines_of d)) <= H /\ Forall (fun l => Z.of_nat (length l) + 1 < W) (lines_of d).
(** A text without the blanks at its end. *)
Fixpoint drop_blanks (l : list Z) : list Z := match l with 32 :: r => drop_blanks r | _ => l end.
Definition trim (l : list Z) : list Z := rev (drop_blanks (rev l)).
(** If [d'] has fewer lines than [d], its last line is not the one that stood there in [d]. *)
Definition tells_apart (d d' : doc) : Prop :=
  (length (lines_of d') < length (lines_of d))%nat -> trim (last (lines_of d') []) <> trim (nth (length (lines_of d') - 1) (lines_of d) []).

(** ** The area holds the document *)
Record keeps_doc (h : Z) (a : area) (d : doc) : Prop := KD {
  kd_buf : buf (core a) = lines_of d; kd_row : row (core a) = row_of d; kd_col : col (core a) = col_of d;
  kd_srow : srow (core a) = 0; kd_ht : TaModel.height (conf (core a)) = h;
  kd_val : TaModel.validator (conf (core a)) = None; kd_ro : TaModel.read_only (conf (core a)) = false; kd_ml : TaModel.max_lines (conf (core a)) = 0;
  kd_ph : ph a = []; kd_nums : nums a = false; kd_curs : curs a = true;
  kd_ok : Forall (Forall single_width) (lines_of d) }.

Lemma get_mid (u : list (list Z)) x b : TaModel.get_line (u ++ x :: b) (length u) = x.
Proof. unfold TaModel.get_line. apply nth_middle. Qed.
Lemma leb_mid (u : list (list Z)) x b : (length (u ++ x :: b) <=? length u)%nat = false.
Proof. rewrite app_length. cbn. lia. Qed.
Lemma split_mid {A} (l r : list A) : firstn (length l) (l ++ r) = l /\ skipn (length l) (l ++ r) = r.
Proof. rewrite firstn_app, Nat.sub_diag, firstn_all, skipn_app, skipn_all, Nat.sub_diag. cbn. now rewrite app_nil_r. Qed.
Lemma last_eq {A} (u : list A) x d : last (u ++ [x]) d = x /\ removelast (u ++ [x]) = u.
Proof. split; [apply last_last|apply removelast_last]. Qed.
Lemma snoc_case {A} (u : list A) : u = [] \/ exists u' x, u = u' ++ [x].
Proof. destruct u as [|y u]; [now left|right]. destruct (@exists_last _ (y :: u) ltac:(discriminate)) as (u' & x & E). eauto. Qed.

(* what a motion or an edit comes to *)
Lemma kd_cursor h a d d' t : keeps_doc h a d -> (Z.of_nat (length (lines_of d')) <= h) -> Forall (Forall single_width) (lines_of d') ->
  buf t = lines_of d' -> srow t = 0 -> conf t = conf (core a) ->
  keeps_doc h (TaViewModel.Area (TaModel.with_cursor t (row_of d') (col_of d')) (ph a) (nums a) (curs a)) d'.
Proof.
  intros K F Ok B Sr Cf. destruct K. constructor; cbn [core TaModel.with_cursor buf row col conf srow ph nums curs]; rewrite ?Cf; auto.
  unfold TaModel.scroll_to. rewrite Sr, kd_ht0. assert (R : (row_of d' < length (lines_of d'))%nat) by (destruct d' as [[[u l] r] b]; cbn; rewrite app_length; cbn; lia).
  replace (Z.of_nat (row_of d') <? 0) with false by lia. replace (0 + h <=? Z.of_nat (row_of d')) with false by lia. reflexivity.
Qed.
Definition leads (t : TaModel.ta) (d d' : doc) (t' : TaModel.ta) : Prop :=
  (t' = t /\ lines_of d' = lines_of d /\ row_of d' = row_of d /\ col_of d' = col_of d) \/
  (exists t1, t' = TaModel.with_cursor t1 (row_of d') (col_of d') /\ buf t1 = lines_of d' /\ srow t1 = srow t /\ conf t1 = conf t).
Record at_doc (t : TaModel.ta) (d : doc) : Prop := AD {
  ad_buf : buf t = lines_of d; ad_row : row t = row_of d; ad_col : col t = col_of d;
  ad_val : TaModel.validator (conf t) = None; ad_ro : TaModel.read_only (conf t) = false; ad_ml : TaModel.max_lines (conf t) = 0 }.
Lemma go_any t d r c : at_doc t d -> fst (TaModel.go t r c) = TaModel.with_cursor t r c.
Proof. intros A. unfold TaModel.go, TaModel.allowed. rewrite (ad_val _ _ A). reflexivity. Qed.
Lemma go_leads t d d' : at_doc t d -> lines_of d' = lines_of d -> forall r c, r = row_of d' -> c = col_of d' -> leads t d d' (fst (TaModel.go t r c)).
Proof. intros A L r c -> ->. rewrite (go_any _ _ _ _ A). right. exists t. split; [reflexivity|]. destruct A. rewrite L. auto. Qed.
Lemma cursor_leads t d d' : at_doc t d -> lines_of d' = lines_of d -> forall r c, r = row_of d' -> c = col_of d' -> leads t d d' (fst (TaModel.move_cursor t r c)).
Proof.
  intros A L r c Hr Hc. unfold TaModel.move_cursor. destruct (_ && _)%bool eqn:E; [|now apply go_leads].
  apply andb_prop in E. destruct E as [E1 E2]. apply Nat.eqb_eq in E1, E2. left. destruct A. repeat split; auto; congruence.
Qed.
Lemma here t d : leads t d d t.
Proof. left. auto. Qed.
Lemma cur_line_doc t u l r b : at_doc t (u, l, r, b) -> TaModel.cur_line t = l ++ r.
Proof. intros [B R C _ _ _]. unfold TaModel.cur_line. rewrite B, R. apply get_mid. Qed.
Lemma snoc_len {A} (l : list A) x : length (l ++ [x]) = S (length l).
Proof. rewrite app_length. cbn. lia. Qed.

Lemma left_ok t d : at_doc t d -> leads t d (left_key d) (fst (TaModel.move_left t)).
Proof.
  intros A. destruct d as [[[u l] r] b]. pose proof A as [B R C _ _ _]. cbn [lines_of row_of col_of left_key] in *. unfold TaModel.move_left. rewrite C, R.
  destruct (snoc_case l) as [->|(l' & x & ->)].
  - destruct (snoc_case u) as [->|(u' & y & ->)]; [apply here|]. cbn [length]. rewrite snoc_len.
    destruct (u' ++ [y]) as [|z zs] eqn:E; [destruct u'; discriminate|]. rewrite <- E in *. rewrite !(proj1 (last_eq u' y [])), (proj2 (last_eq u' y [])).
    apply go_leads; auto; cbn [lines_of row_of col_of]; [rewrite <- app_assoc, app_nil_r; reflexivity|].
    rewrite B, <- app_assoc. cbn [app]. now rewrite get_mid.
  - rewrite snoc_len. destruct (l' ++ [x]) as [|z zs] eqn:E; [destruct l'; discriminate|]. rewrite <- E in *. rewrite !(proj1 (last_eq l' x 0)), (proj2 (last_eq l' x 0)).
    apply go_leads; auto. cbn [lines_of]. rewrite <- app_assoc. reflexivity.
Qed.
Lemma right_ok t d : at_doc t d -> leads t d (right_key d) (fst (TaModel.move_right t)).
Proof.
  intros A. destruct d as [[[u l] r] b]. pose proof A as [B R C _ _ _]. cbn [lines_of row_of col_of right_key] in *. unfold TaModel.move_right.
  rewrite (cur_line_doc _ _ _ _ _ A), C, R, B, !app_length. cbn [length].
  destruct r as [|x r]; cbn [length].
  - replace (length l <? length l + 0)%nat with false by lia. destruct b as [|n b]; cbn [length].
    + replace (length u <? length u + 1 - 1)%nat with false by lia. apply here.
    + replace (length u <? length u + S (S (length b)) - 1)%nat with true by lia. apply go_leads; auto; cbn [lines_of row_of col_of]; [rewrite <- app_assoc, app_nil_r; reflexivity|now rewrite snoc_len].
  - replace (length l <? length l + S (length r))%nat with true by lia. apply go_leads; auto; cbn [lines_of row_of col_of]; [rewrite <- app_assoc; reflexivity|now rewrite snoc_len].
Qed.
Lemma up_ok t d : at_doc t d -> leads t d (up_key d) (fst (TaModel.move_up t)).
Proof.
  intros A. destruct d as [[[u l] r] b]. pose proof A as [B R C V _ _]. cbn [lines_of row_of col_of up_key] in *. unfold TaModel.move_up. rewrite R.
  destruct (snoc_case u) as [->|(u' & y & ->)]; [unfold TaModel.edge; rewrite V; apply here|]. rewrite snoc_len.
  destruct (u' ++ [y]) as [|z zs] eqn:E; [destruct u'; discriminate|]. rewrite <- E in *. rewrite !(proj1 (last_eq u' y [])), (proj2 (last_eq u' y [])).
  apply go_leads; auto; cbn [lines_of row_of col_of]; [rewrite firstn_skipn, <- app_assoc; reflexivity|].
  rewrite B, <- app_assoc. cbn [app]. rewrite get_mid, firstn_length, C. lia.
Qed.
Lemma down_ok t d : at_doc t d -> leads t d (down_key d) (fst (TaModel.move_down t)).
Proof.
  intros A. destruct d as [[[u l] r] b]. pose proof A as [B R C V _ _]. cbn [lines_of row_of col_of down_key] in *. unfold TaModel.move_down.
  rewrite B, R, app_length. cbn [length]. destruct b as [|n b]; cbn [length].
  - replace (length u + 1 - 1 <=? length u)%nat with true by lia. unfold TaModel.edge; rewrite V; apply here.
  - replace (length u + S (S (length b)) - 1 <=? length u)%nat with false by lia.
    assert (G : TaModel.get_line (u ++ (l ++ r) :: n :: b) (S (length u)) = n).
    { pose proof (get_mid (u ++ [l ++ r]) n b) as G. rewrite snoc_len, <- app_assoc in G. exact G. }
    rewrite G. apply go_leads; auto; cbn [lines_of row_of col_of]; [rewrite firstn_skipn, <- app_assoc; reflexivity|now rewrite snoc_len|rewrite firstn_length, C; lia].
Qed.
Lemma home_ok t d : at_doc t d -> leads t d (home_key d) (fst (TaModel.move_line_start t)).
Proof.
  intros A. destruct d as [[[u l] r] b]. pose proof A as [B R C V _ _]. cbn [lines_of row_of col_of home_key] in *. unfold TaModel.move_line_start. rewrite V.
  apply cursor_leads; auto.
Qed.
Lemma end_ok t d : at_doc t d -> leads t d (end_key d) (fst (TaModel.move_line_end t)).
Proof.
  intros A. destruct d as [[[u l] r] b]. pose proof A as [B R C V _ _]. cbn [lines_of row_of col_of end_key] in *. unfold TaModel.move_line_end.
  apply cursor_leads; auto; cbn [lines_of row_of col_of]; [now rewrite app_nil_r|]. rewrite (cur_line_doc _ _ _ _ _ A). reflexivity.
Qed.
Lemma edit_leads t d d' b r c : at_doc t d -> b = lines_of d' -> r = row_of d' -> c = col_of d' -> leads t d d' (TaModel.with_cursor (TaModel.with_buffer t b) r c).
Proof. intros A -> -> ->. right. eexists. split; [reflexivity|]. auto. Qed.
Lemma type_ok t d ch : at_doc t d -> leads t d (type_key ch d) (TaModel.type_char t ch).
Proof.
  intros A. destruct d as [[[u l] r] b]. pose proof A as [B R C V Ro _]. cbn [lines_of row_of col_of type_key] in *. unfold TaModel.type_char. rewrite Ro.
  apply (edit_leads _ _ _ _ _ _ A); cbn [lines_of row_of col_of]; auto; [|rewrite snoc_len; auto].
  unfold TaModel.insert_char. rewrite B, R, leb_mid, get_mid, C, app_length. replace (length l + length r <? length l)%nat with false by lia.
  rewrite (proj1 (split_mid l r)), (proj2 (split_mid l r)), TaProofs.set_at, <- app_assoc. reflexivity.
Qed.
Lemma enter_ok t d : at_doc t d -> leads t d (enter_key d) (TaModel.newline t).
Proof.
  intros A. destruct d as [[[u l] r] b]. pose proof A as [B R C V Ro Ml]. cbn [lines_of row_of col_of enter_key] in *. unfold TaModel.newline. rewrite Ro, Ml. cbn [Z.ltb Z.compare andb].
  apply (edit_leads _ _ _ _ _ _ A); cbn [lines_of row_of col_of]; auto; [|rewrite snoc_len; auto].
  unfold TaModel.insert_newline. cbv zeta. rewrite B, R, leb_mid, get_mid, C, app_length. replace (length l + length r <? length l)%nat with false by lia.
  rewrite (proj1 (split_mid l r)), (proj2 (split_mid l r)), TaProofs.set_at.
  replace (u ++ l :: b) with ((u ++ [l]) ++ b) by (rewrite <- app_assoc; reflexivity). rewrite <- (snoc_len u l), (proj1 (split_mid _ _)), (proj2 (split_mid _ _)). reflexivity.
Qed.
Lemma delete_mid u x y b : TaModel.delete_line (u ++ x :: y :: b) (S (length u)) = u ++ x :: b.
Proof.
  unfold TaModel.delete_line. rewrite app_length. cbn [length]. replace (length u + S (S (length b)) <=? S (length u))%nat with false by lia.
  replace (length u + S (S (length b)) =? 1)%nat with false by lia.
  replace (u ++ x :: y :: b) with ((u ++ [x]) ++ y :: b) by (rewrite <- app_assoc; reflexivity). rewrite <- (snoc_len u x), (proj1 (split_mid _ _)).
  replace ((u ++ [x]) ++ y :: b) with (((u ++ [x]) ++ [y]) ++ b) by (rewrite <- !app_assoc; reflexivity). rewrite <- (snoc_len (u ++ [x]) y), (proj2 (split_mid _ _)), <- app_assoc. reflexivity.
Qed.
Lemma delete_char_mid u l x r b : TaModel.delete_char (u ++ (l ++ x :: r) :: b) (length u) (length l) = u ++ (l ++ r) :: b.
Proof.
  unfold TaModel.delete_char. rewrite leb_mid, get_mid, app_length. cbn [length]. replace (length l + S (length r) <=? length l)%nat with false by lia.
  rewrite (proj1 (split_mid l (x :: r))). replace (skipn (S (length l)) (l ++ x :: r)) with r.
  2:{ replace (l ++ x :: r) with ((l ++ [x]) ++ r) by (rewrite <- app_assoc; reflexivity). rewrite <- (snoc_len l x). symmetry. apply split_mid. }
  apply TaProofs.set_at.
Qed.
Lemma set_line_mid u x y b : TaModel.set_line (u ++ x :: b) (length u) y = u ++ y :: b.
Proof. unfold TaModel.set_line. rewrite leb_mid. apply TaProofs.set_at. Qed.
Lemma backspace_ok t d : at_doc t d -> leads t d (backspace_key d) (fst (TaModel.backspace t)).
Proof.
  intros A. destruct d as [[[u l] r] b]. pose proof A as [B R C V Ro _]. cbn [lines_of row_of col_of backspace_key] in *. unfold TaModel.backspace, TaModel.allowed. rewrite Ro, C, R, V.
  destruct (snoc_case l) as [->|(l' & x & ->)].
  - destruct (snoc_case u) as [->|(u' & y & ->)]; [apply here|]. cbn [length]. rewrite snoc_len.
    destruct (u' ++ [y]) as [|z zs] eqn:E; [destruct u'; discriminate|]. rewrite <- E in *. rewrite !(proj1 (last_eq u' y [])), (proj2 (last_eq u' y [])).
    cbn [app] in B. rewrite <- app_assoc in B. cbn [app] in B. rewrite B, get_mid. unfold TaModel.cur_line. rewrite B, R.
    replace (TaModel.get_line (u' ++ y :: r :: b) (length (u' ++ [y]))) with r by (symmetry; pose proof (get_mid (u' ++ [y]) r b) as G; rewrite <- app_assoc in G; exact G).
    apply (edit_leads _ _ _ _ _ _ A); auto. rewrite set_line_mid, delete_mid. reflexivity.
  - rewrite snoc_len. destruct (l' ++ [x]) as [|z zs] eqn:E; [destruct l'; discriminate|]. rewrite <- E in *. rewrite !(proj2 (last_eq l' x 0)).
    apply (edit_leads _ _ _ _ _ _ A); auto. cbn [lines_of]. rewrite B, <- app_assoc. cbn [app]. apply delete_char_mid.
Qed.
Lemma delete_ok t d : at_doc t d -> leads t d (delete_key d) (TaModel.delete_forward t).
Proof.
  intros A. destruct d as [[[u l] r] b]. pose proof A as [B R C V Ro _]. cbn [lines_of row_of col_of delete_key] in *. unfold TaModel.delete_forward, TaModel.join_next.
  rewrite Ro, C, R, (cur_line_doc _ _ _ _ _ A), app_length. destruct r as [|x r]; cbn [length].
  - replace (length l + 0 <=? length l)%nat with true by lia. rewrite B, app_length. cbn [length]. rewrite app_nil_r. destruct b as [|n b]; cbn [length].
    + replace (length u <? length u + 1 - 1)%nat with false by lia. apply here.
    + replace (length u <? length u + S (S (length b)) - 1)%nat with true by lia.
      assert (G : TaModel.get_line (u ++ l :: n :: b) (S (length u)) = n).
      { pose proof (get_mid (u ++ [l]) n b) as G. rewrite snoc_len, <- app_assoc in G. exact G. }
      rewrite G, set_line_mid, delete_mid. apply (edit_leads _ _ _ _ _ _ A); auto.
  - replace (length l + S (length r) <=? length l)%nat with false by lia. rewrite B. apply (edit_leads _ _ _ _ _ _ A); auto. cbn [lines_of]. apply delete_char_mid.
Qed.
Lemma kd_at h a d : keeps_doc h a d -> at_doc (core a) d.
Proof. intros []. constructor; auto. Qed.
Lemma kd_leads h a d d' t' : keeps_doc h a d -> leads (core a) d d' t' -> Z.of_nat (length (lines_of d')) <= h -> Forall (Forall single_width) (lines_of d') ->
  keeps_doc h (TaViewModel.Area t' (ph a) (nums a) (curs a)) d'.
Proof.
  intros K [(-> & L & R & C)|(t1 & -> & B & Sr & Cf)] F Ok.
  - destruct K. constructor; cbn [core ph nums curs]; auto; congruence.
  - apply (kd_cursor h a d); auto. rewrite Sr. apply K.
Qed.
Definition narrow (d : doc) : Prop := Forall (Forall single_width) (lines_of d).
Lemma narrow_parts u l r b : narrow (u, l, r, b) <-> Forall (Forall single_width) u /\ Forall single_width l /\ Forall single_width r /\ Forall (Forall single_width) b.
Proof.
  unfold narrow. cbn [lines_of]. rewrite Forall_app. split.
  - intros (U & X). inversion X as [|? ? Y Z]; subst. apply Forall_app in Y. tauto.
  - intros (U & L & R & B). split; [exact U|]. constructor; [apply Forall_app; tauto|exact B].
Qed.
Lemma Forall_snoc {A} (P : A -> Prop) u x : Forall P (u ++ [x]) <-> Forall P u /\ P x.
Proof. rewrite Forall_app. split; [intros (U & X); inversion X; tauto|intros (U & X); auto]. Qed.
Lemma hit_narrow d k : editor_stroke k -> narrow d -> narrow (hit d k).
Proof.
  intros Hk N. destruct d as [[[u l] r] b].
  assert (N' := N). rewrite narrow_parts in N'. destruct N' as (U & L & R & B).
  assert (Left : narrow (left_key (u, l, r, b))).
  { cbn [left_key]. destruct (snoc_case l) as [->|(l' & x & ->)].
    - destruct (snoc_case u) as [->|(u' & y & ->)]; [exact N|]. destruct (u' ++ [y]) eqn:E; [destruct u'; discriminate|]. rewrite <- E in *. rewrite last_last, removelast_last.
      rewrite Forall_snoc in U. apply narrow_parts. tauto || (split; [tauto|]; split; [tauto|]; split; [constructor|]; constructor; tauto).
    - destruct (l' ++ [x]) eqn:E; [destruct l'; discriminate|]. rewrite <- E in *. rewrite last_last, removelast_last.
      rewrite Forall_snoc in L. apply narrow_parts. split; [tauto|]. split; [tauto|]. split; [constructor; tauto|tauto]. }
  assert (Right : narrow (right_key (u, l, r, b))).
  { cbn [right_key]. destruct r as [|x r]; [destruct b as [|n b]; [exact N|]|].
    - inversion B; subst. apply narrow_parts. rewrite Forall_snoc. auto 10.
    - inversion R; subst. apply narrow_parts. rewrite Forall_snoc. auto 10. }
  assert (Fn : forall n (s : list Z), Forall single_width s -> Forall single_width (firstn n s) /\ Forall single_width (skipn n s)).
  { intros n s Hs. rewrite <- (firstn_skipn n s) in Hs. apply Forall_app in Hs. exact Hs. }
  assert (Lr : Forall single_width (l ++ r)) by (apply Forall_app; auto).
  assert (Up : narrow (up_key (u, l, r, b))).
  { cbn [up_key]. destruct (snoc_case u) as [->|(u' & y & ->)]; [exact N|]. destruct (u' ++ [y]) eqn:E; [destruct u'; discriminate|]. rewrite <- E in *. rewrite last_last, removelast_last.
    rewrite Forall_snoc in U. destruct (Fn (length l) y ltac:(tauto)). apply narrow_parts. split; [tauto|]. split; [tauto|]. split; [tauto|]. constructor; auto. }
  assert (Down : narrow (down_key (u, l, r, b))).
  { cbn [down_key]. destruct b as [|n b]; [exact N|]. inversion B; subst. destruct (Fn (length l) n ltac:(auto)). apply narrow_parts. rewrite Forall_snoc. auto 10. }
  assert (Back : narrow (backspace_key (u, l, r, b))).
  { cbn [backspace_key]. destruct (snoc_case l) as [->|(l' & x & ->)].
    - destruct (snoc_case u) as [->|(u' & y & ->)]; [exact N|]. destruct (u' ++ [y]) eqn:E; [destruct u'; discriminate|]. rewrite <- E in *. rewrite last_last, removelast_last.
      rewrite Forall_snoc in U. apply narrow_parts. tauto.
    - destruct (l' ++ [x]) eqn:E; [destruct l'; discriminate|]. rewrite <- E in *. rewrite removelast_last.
      rewrite Forall_snoc in L. apply narrow_parts. tauto. }
  assert (Del : narrow (delete_key (u, l, r, b))).
  { cbn [delete_key]. destruct r as [|x r]; [destruct b as [|n b]; [exact N|]|].
    - inversion B; subst. apply narrow_parts. auto.
    - inversion R; subst. apply narrow_parts. auto. }
  assert (Home : narrow (home_key (u, l, r, b))) by (apply narrow_parts; auto).
  assert (End_ : narrow (end_key (u, l, r, b))) by (apply narrow_parts; auto).
  assert (Enter : narrow (enter_key (u, l, r, b))) by (apply narrow_parts; rewrite Forall_snoc; auto 10).
  destruct k as [c|ds k| |ps f]; cbn [hit]; auto.
  - repeat (match goal with |- context [if ?c then _ else _] => destruct c eqn:? end; auto).
    cbn [editor_stroke] in Hk. apply narrow_parts. split; [auto|]. split; [|auto]. apply Forall_snoc. split; [auto|]. destruct Hk as [Hk|Hk]; [exact Hk|lia].
  - destruct (ktype k); auto.
Qed.

Lemma hit_area h a d k : keeps_doc h a d -> editor_stroke k -> Z.of_nat (length (lines_of (hit d k))) <= h ->
  keeps_doc h (fold_left te_update (stroke_msgs k) a) (hit d k).
Proof.
  intros K Hk F. assert (N : narrow (hit d k)) by (apply hit_narrow; [exact Hk|apply K]). pose proof (kd_at _ _ _ K) as A.
  assert (G : forall ms d', d' = hit d k -> leads (core a) d d' (fst (TaModel.handle (to_takey ms) (core a))) -> keeps_doc h (te_update a ms) d').
  { intros ms d' -> L. unfold te_update. cbn [TaViewModel.astep TaModel.apply]. apply (kd_leads h a d); auto. }
  assert (Same : hit d k = d -> keeps_doc h a (hit d k)) by (intros ->; exact K).
  destruct k as [c|ds k| |ps f]; cbn [stroke_msgs].
  - cbn [editor_stroke] in Hk. unfold char_msgs.
    destruct Hk as [Hk|[Hk|Hk]].
    + assert (Hr : 32 <= c /\ c <> 127) by (unfold single_width in Hk; lia).
      replace ((c =? 13) || (c =? 10)) with false by lia. replace ((c =? 127) || (c =? 8)) with false by lia.
      replace (c =? 9) with false by lia. replace ((1 <=? c) && (c <=? 26)) with false by lia. replace (c <? 32) with false by lia.
      assert (E : hit d (Chr c) = type_key c d).
      { cbn [hit]. replace ((c =? 127) || (c =? 8)) with false by lia. replace ((c =? 13) || (c =? 10)) with false by lia. replace (c =? 1) with false by lia. replace (c =? 2) with false by lia.
        replace (c =? 4) with false by lia. replace (c =? 5) with false by lia. replace (c =? 6) with false by lia. replace (c =? 14) with false by lia. replace (c =? 16) with false by lia. replace (c <? 32) with false by lia. reflexivity. }
      destruct (c =? 32) eqn:E32; cbn [fold_left]; apply G; auto; rewrite E.
      * assert (c = 32) by lia. subst c. apply (type_ok _ _ 32 A).
      * apply (type_ok _ _ c A).
    + destruct Hk as [Hc Hn]. cbn [In] in Hn.
      assert (D : In c [0;1;2;3;4;5;6;7;8;9;10;12;13;14;15;16;17;18;19;20;22;24;26;28;29;30;31]) by (cbn [In]; lia).
      cbn [In] in D.
      repeat (destruct D as [D|D]; [subst c; cbn [fold_left Z.eqb Pos.eqb orb andb Z.leb Z.ltb Z.compare Pos.compare Pos.compare_cont]; first [apply Same; reflexivity |
        apply G; [reflexivity|]; first [exact (here _ _) | exact (home_ok _ _ A) | exact (left_ok _ _ A) | exact (delete_ok _ _ A) | exact (end_ok _ _ A) | exact (right_ok _ _ A) | exact (backspace_ok _ _ A) | exact (enter_ok _ _ A) | exact (down_ok _ _ A) | exact (up_ok _ _ A)]]|]).
      destruct D.
    + subst c. cbn [fold_left Z.eqb Pos.eqb orb andb Z.leb Z.ltb Z.compare Pos.compare Pos.compare_cont]. apply G; [reflexivity|]. exact (backspace_ok _ _ A).
  - cbn [fold_left]. apply G; [reflexivity|]. cbn [editor_stroke csi_keys In] in Hk. cbn [hit].
    repeat (destruct Hk as [Hk|Hk]; [injection Hk as <- <-;
      first [exact (here _ _) | exact (home_ok _ _ A) | exact (left_ok _ _ A) | exact (delete_ok _ _ A) | exact (end_ok _ _ A) | exact (right_ok _ _ A) | exact (down_ok _ _ A) | exact (up_ok _ _ A)]|]).
    destruct Hk.
  - cbn [fold_left]. apply G; [reflexivity|]. apply here.
  - cbn [fold_left]. apply Same. reflexivity.
Qed.

(** ** What is drawn *)
Definition bar (l r : list Z) : list item := map Ch l ++ SCsi [55] 109 :: Ch (hd 32 r) :: SCsi [50; 55] 109 :: map Ch (tl r).
Definition look (d : doc) : list (list item) :=
  let '(u, l, r, b) := d in
  match lines_of d with [[]] => [[]] | _ => map (map Ch) u ++ bar l r :: map (map Ch) b end.
(* the same from the area, for the program's view *)
Definition lns (a : area) : list (list item) :=
  let l := TaModel.cur_line (core a) in
  look (firstn (row (core a)) (buf (core a)), firstn (col (core a)) l, skipn (col (core a)) l, skipn (S (row (core a))) (buf (core a))).
Lemma lns_doc h a d : keeps_doc h a d -> lns a = look d.
Proof.
  intros K. destruct d as [[[u l] r] b]. unfold lns. pose proof (kd_at _ _ _ K) as A. rewrite (cur_line_doc _ _ _ _ _ A). destruct A as [B R C _ _ _]. rewrite B, R, C.
  cbn [lines_of row_of col_of]. rewrite (proj1 (split_mid l r)), (proj2 (split_mid l r)), (proj1 (split_mid u _)).
  replace (u ++ (l ++ r) :: b) with ((u ++ [l ++ r]) ++ b) by (rewrite <- app_assoc; reflexivity). rewrite <- (snoc_len u (l ++ r)), (proj2 (split_mid _ b)). reflexivity.
Qed.
Lemma enc_join ls : enc (join_nl ls) = join_nl (map enc ls).
Proof.
  induction ls as [|x ls IH]; [reflexivity|]. destruct ls as [|y ls]; [reflexivity|].
  change (join_nl (x :: y :: ls)) with (x ++ 10 :: join_nl (y :: ls)). rewrite enc_app, enc_cons_low by lia. rewrite IH. reflexivity.
Qed.
Lemma draw_below a ls : nums a = false -> forall i, (Z.of_nat (row (core a)) < Z.of_nat i + srow (core a)) -> TaViewModel.draw_lines a i ls = join_nl ls.
Proof.
  intros Nu. induction ls as [|x ls IH]; intros i Hi; [reflexivity|]. cbn [TaViewModel.draw_lines].
  assert (E : TaViewModel.draw_line a i x = x).
  { unfold TaViewModel.draw_line. rewrite Nu. replace (Z.of_nat i + srow (core a) =? Z.of_nat (row (core a))) with false by lia. reflexivity. }
  rewrite E. destruct ls as [|y ls]; [reflexivity|]. rewrite IH by lia. reflexivity.
Qed.
Lemma draw_at a u x b : nums a = false -> curs a = true -> srow (core a) = 0 -> forall i, row (core a) = (i + length u)%nat ->
  TaViewModel.draw_lines a i (u ++ x :: b) = join_nl (u ++ TaViewModel.line_with_cursor x (col (core a)) :: b).
Proof.
  intros Nu Cu Sr. induction u as [|y u IH]; intros i Hi; cbn [app length] in *.
  - cbn [TaViewModel.draw_lines]. assert (E : TaViewModel.draw_line a i x = TaViewModel.line_with_cursor x (col (core a))).
    { unfold TaViewModel.draw_line. rewrite Nu, Cu, Sr. replace (Z.of_nat i + 0 =? Z.of_nat (row (core a))) with true by lia. reflexivity. }
    rewrite E. destruct b as [|z b]; [reflexivity|]. rewrite draw_below by (auto; lia). reflexivity.
  - cbn [TaViewModel.draw_lines]. assert (E : TaViewModel.draw_line a i y = y).
    { unfold TaViewModel.draw_line. rewrite Nu, Sr. replace (Z.of_nat i + 0 =? Z.of_nat (row (core a))) with false by lia. reflexivity. }
    rewrite E, (IH (S i)) by lia. destruct u; reflexivity.
Qed.
Lemma bar_bytes l r : line_bytes (bar l r) = enc (TaViewModel.line_with_cursor (l ++ r) (length l)).
Proof.
  unfold TaViewModel.line_with_cursor, bar, line_bytes. rewrite flat_map_app. fold (line_bytes (map Ch l)). rewrite line_chars. cbn [flat_map]. fold (line_bytes (map Ch (tl r))). rewrite line_chars.
  rewrite app_length, (proj1 (split_mid l r)), (proj2 (split_mid l r)).
  assert (E1 : enc [27; 91; 55; 109] = item_bytes (SCsi [55] 109)) by reflexivity. assert (E2 : enc [27; 91; 50; 55; 109] = item_bytes (SCsi [50; 55] 109)) by reflexivity.
  destruct r as [|x r]; cbn [length].
  - replace (length l + 0 <=? length l)%nat with true by lia. rewrite (app_nil_r l), enc_app. f_equal; reflexivity.
  - replace (length l + S (length r) <=? length l)%nat with false by lia. rewrite enc_app. f_equal.
    assert (S1 : skipn (S (length l)) (l ++ x :: r) = r).
    { replace (l ++ x :: r) with ((l ++ [x]) ++ r) by (rewrite <- app_assoc; reflexivity). rewrite <- (snoc_len l x). apply split_mid. }
    rewrite S1, enc_app, E1. f_equal.
Qed.
Lemma view_look sw h a d : keeps_doc h a d -> Z.of_nat (length (lines_of d)) <= h -> te_view sw a = view_bytes (look d).
Proof.
  intros K F. destruct d as [[[u l] r] b]. unfold te_view, TaViewModel.view, TaViewModel.is_empty, TaModel.visible_lines. destruct K.
  rewrite kd_buf0, kd_srow0, kd_ht0, kd_ph0. cbn [Z.add Z.ltb Z.compare orb].
  assert (Z0 : forall X Y : option (list Z), match lines_of (u, l, r, b) with [[]] => X | _ => Y end = match lines_of (u, l, r, b) with [[]] => X | _ => Y end) by reflexivity.
  assert (V : match lines_of (u, l, r, b) with
     | [[]] => look (u, l, r, b) = [[]]
     | _ => look (u, l, r, b) = map (map Ch) u ++ bar l r :: map (map Ch) b end).
  { unfold look. destruct (lines_of (u, l, r, b)) as [|[|? ?] [|? ?]]; reflexivity. }
  assert (D : join_nl (map line_bytes (map (map Ch) u ++ bar l r :: map (map Ch) b)) = enc (TaViewModel.draw_lines a 0 (lines_of (u, l, r, b)))).
  { cbn [lines_of]. rewrite draw_at; auto. rewrite enc_join, !map_app. cbn [map]. rewrite kd_col0. cbn [col_of]. rewrite bar_bytes. do 2 f_equal.
    - rewrite map_map. apply map_ext. apply line_chars.
    - f_equal. rewrite map_map. apply map_ext. apply line_chars. }
  assert (W : (if Z.of_nat (length (lines_of (u, l, r, b))) <=? 0 then Some []
     else if (if Z.of_nat (length (lines_of (u, l, r, b))) <? h then Z.of_nat (length (lines_of (u, l, r, b))) else h) <? 0 then None
          else Some (firstn (Z.to_nat ((if Z.of_nat (length (lines_of (u, l, r, b))) <? h then Z.of_nat (length (lines_of (u, l, r, b))) else h) - 0)) (skipn (Z.to_nat 0) (lines_of (u, l, r, b)))))
     = Some (lines_of (u, l, r, b))).
  { assert (P : (0 < length (lines_of (u, l, r, b)))%nat) by (cbn [lines_of]; rewrite app_length; cbn; lia). set (L := lines_of (u, l, r, b)) in *.
    replace (if Z.of_nat (length L) <? h then Z.of_nat (length L) else h) with (Z.of_nat (length L)) by (destruct (Z.of_nat (length L) <? h) eqn:E; lia).
    replace (Z.of_nat (length L) <=? 0) with false by lia. replace (Z.of_nat (length L) <? 0) with false by lia. rewrite Z.sub_0_r, Nat2Z.id. cbn [skipn Z.to_nat]. now rewrite firstn_all. }
  rewrite W. cbn [option_map]. unfold view_bytes.
  destruct (lines_of (u, l, r, b)) as [|[|x0 L0] [|L1 Ls]]; rewrite V; try (symmetry; exact D). reflexivity.
Qed.

Lemma every_single : forall left c, single_width c -> InSpec.every left c = true.
Proof. reflexivity. Qed.

Section TaEe.
Variables (sw : list Z -> Z) (cw : Z -> Z) (zw : Z -> bool) (W H h : Z).
Hypothesis Hcw : forall c, single_width c -> cw c = 1 /\ zw c = false.

Lemma ch_ok c : single_width c -> show_ok cw (rdw zw) (Ch c).
Proof.
  intros Hc. cbn [show_ok]. destruct (Hcw c Hc) as [E1 E2]. destruct (C12_character_widths zw c) as (_ & E3 & _).
  split; [unfold single_width, scalar in *; lia|]. unfold single_width in Hc. split; [lia|]. split; [lia|]. rewrite E1, E3; auto.
Qed.
Lemma chars_ok s : Forall single_width s -> Forall (show_ok cw (rdw zw)) (map Ch s).
Proof. intros Hs. rewrite Forall_map. eapply Forall_impl; [|exact Hs]. exact ch_ok. Qed.
Lemma bar_ok l r : Forall single_width l -> Forall single_width r -> Forall (show_ok cw (rdw zw)) (bar l r).
Proof.
  intros L R. unfold bar. apply Forall_app. split; [now apply chars_ok|].
  constructor; [split; [reflexivity|repeat constructor; lia]|]. constructor; [apply ch_ok; destruct r; cbn [hd]; [unfold single_width; lia|inversion R; auto]|].
  constructor; [split; [reflexivity|repeat constructor; lia]|]. apply chars_ok. destruct r; cbn [tl]; [constructor|inversion R; auto].
Qed.
Lemma bar_visible l r : visible (bar l r) = l ++ hd 32 r :: tl r.
Proof.
  unfold bar, visible. rewrite flat_map_app. fold (visible (map Ch l)). rewrite visible_chars. cbn [flat_map item_chars app].
  fold (visible (map Ch (tl r))). rewrite visible_chars. reflexivity.
Qed.
Lemma bar_narrow l r : Forall single_width l -> Forall single_width r -> Forall single_width (l ++ hd 32 r :: tl r).
Proof.
  intros L R. apply Forall_app. split; [exact L|]. destruct r; cbn [hd tl]; [repeat constructor; lia|exact R].
Qed.
Lemma drop_app s : drop_blanks (32 :: s) = drop_blanks s. Proof using. clear Hcw. reflexivity. Qed.
Lemma trim_blank s : trim (s ++ [32]) = trim s.
Proof. unfold trim. now rewrite rev_app_distr. Qed.
Lemma bar_trim l r : trim (visible (bar l r)) = trim (l ++ r).
Proof.
  rewrite bar_visible. destruct r; cbn [hd tl]; [|reflexivity]. change (l ++ [32]) with (l ++ [32]). rewrite trim_blank, app_nil_r. reflexivity.
Qed.

(* the picture of every line is the line, with a blank behind it at the cursor *)
Lemma look_lines d : narrow d -> length (look d) = length (lines_of d) /\ Forall (Forall (show_ok cw (rdw zw))) (look d) /\
  forall j, trim (visible (nth j (look d) [])) = trim (nth j (lines_of d) []) /\ Forall single_width (visible (nth j (look d) [])) /\
    (length (visible (nth j (look d) [])) <= S (length (nth j (lines_of d) [])))%nat /\
    (forall x, nth x (visible (nth j (look d) [])) 32 = nth x (nth j (lines_of d) []) 32).
Proof.
  intros N. destruct d as [[[u l] r] b]. pose proof N as N'. apply narrow_parts in N' as (U & L & R & B).
  assert (V : (lines_of (u, l, r, b) = [[]] /\ look (u, l, r, b) = [[]]) \/ look (u, l, r, b) = map (map Ch) u ++ bar l r :: map (map Ch) b).
  { unfold look. destruct (lines_of (u, l, r, b)) as [|[|? ?] [|? ?]]; auto. }
  destruct V as [(E1 & E2)|E].
  { rewrite E1, E2. split; [reflexivity|]. split; [repeat constructor|]. intros j. destruct j as [|[|j]]; cbn; auto. }
  rewrite E. cbn [lines_of]. split; [rewrite !app_length; cbn [length]; rewrite !map_length; reflexivity|].
  assert (FM : forall ls, Forall (Forall single_width) ls -> Forall (Forall (show_ok cw (rdw zw))) (map (map Ch) ls)).
  { intros ls Hl. rewrite Forall_map. eapply Forall_impl; [|exact Hl]. exact chars_ok. }
  split; [apply Forall_app; split; [auto|constructor; [apply bar_ok; auto|auto]]|].
  intros j.
  assert (Plain : forall s : list Z, Forall single_width s -> trim (visible (map Ch s)) = trim s /\ Forall single_width (visible (map Ch s)) /\ (length (visible (map Ch s)) <= S (length s))%nat /\
     (forall x, nth x (visible (map Ch s)) 32 = nth x s 32)).
  { intros s Hs. rewrite visible_chars. auto. }
  assert (Pn : forall ls k, Forall (Forall single_width) ls -> let s := nth k ls [] in let v := visible (nth k (map (map Ch) ls) []) in
     trim v = trim s /\ Forall single_width v /\ (length v <= S (length s))%nat /\ (forall x, nth x v 32 = nth x s 32)).
  { intros ls k Hl s v. assert (Ev : v = visible (map Ch s)) by (unfold v, s; change (@nil item) with (map Ch []); now rewrite map_nth).
    rewrite Ev. apply Plain. unfold s. destruct (nth_in_or_default k ls []) as [Hi|Hd]; [rewrite Forall_forall in Hl; auto|rewrite Hd; constructor]. }
  destruct (Nat.lt_trichotomy j (length u)) as [Hj|[Hj|Hj]].
  - rewrite !app_nth1 by (rewrite ?map_length; lia). apply Pn. exact U.
  - subst j. replace (nth (length u) (map (map Ch) u ++ bar l r :: map (map Ch) b) []) with (bar l r).
    2:{ rewrite <- (map_length (map Ch) u). now rewrite nth_middle. }
    rewrite nth_middle. split; [apply bar_trim|]. rewrite bar_visible. split; [apply bar_narrow; auto|]. rewrite !app_length. cbn [length]. split; [destruct r; cbn; lia|].
    intros x. destruct r as [|y r]; cbn [hd tl]; [|reflexivity]. rewrite app_nil_r. destruct (le_lt_dec (length l) x) as [Hx|Hx].
    + rewrite app_nth2, (nth_overflow l) by lia. destruct (x - length l)%nat as [|[|?]]; reflexivity.
    + rewrite app_nth1 by lia. reflexivity.
  - rewrite !app_nth2 by (rewrite ?map_length; lia). rewrite map_length. destruct (j - length u)%nat as [|k] eqn:Ek; [lia|]. cbn [nth]. apply Pn. exact B.
Qed.

(* one more drawing *)
Lemma next_adm d d' cs : narrow d -> narrow d' -> 0 < W -> doc_fits W H h d' -> tells_apart d d' ->
  (adm cw zw W H 0 0 true (look d') cs) -> adm cw zw W H 0 0 true (look d) (SRender (look d') :: cs).
Proof.
  intros N N' HW (F1 & F2 & F3) T Hcs. destruct (look_lines d N) as (L1 & S1 & P1). destruct (look_lines d' N') as (L2 & S2 & P2).
  assert (NE : (0 < length (lines_of d'))%nat) by (destruct d' as [[[u l] r] b]; cbn; rewrite app_length; cbn; lia).
  cbn [adm]. change (keep 0 (look d')) with (look d'). change (fitted (rdw zw) 0) with (fun l : list item => l).
  split; [intros E; rewrite E in L2; cbn in L2; lia|]. split; [exact S2|]. split; [lia|].
  split.
  { apply Forall_nth. intros j dflt Hj. rewrite (nth_indep _ dflt []) by exact Hj. destruct (P2 j) as (_ & Q1 & Q2 & _). rewrite (cols_single InSpec.every sw cw zw every_single Hcw) by exact Q1.
    assert (Hl : Z.of_nat (length (nth j (lines_of d') [])) + 1 < W).
    { rewrite Forall_forall in F3. apply F3. apply nth_In. lia. }
    lia. }
  split; [discriminate|]. split; [|exact Hcs].
  intros _ Hlt. rewrite L1, L2 in Hlt. right. intros Eb.
  assert (In1 : Forall (show_ok cw (rdw zw)) (last (look d') [])).
  { destruct (look d') as [|x xs] eqn:E; [constructor|]. rewrite Forall_forall in S2. apply S2. destruct (@exists_last _ (x :: xs) ltac:(discriminate)) as (ys & y & Ey). rewrite Ey, last_last. apply in_or_app. cbn. auto. }
  assert (In2 : Forall (show_ok cw (rdw zw)) (nth (length (look d') - 1) (look d) [])).
  { rewrite Forall_forall in S1. apply S1. apply nth_In. rewrite L1, L2. lia. }
  pose proof (fitted_same cw zw (fun _ _ => TCell 32 pen0 Single) 0 _ _ In1 In2 Eb) as V. change (fitted (rdw zw) 0) with (fun l : list item => l) in V. cbn beta in V.
  apply (T Hlt).
  assert (El : forall (A : Type) (xs : list A) dd, xs <> [] -> last xs dd = nth (length xs - 1) xs dd).
  { clear. intros A xs dd Hx. destruct (exists_last Hx) as (ys & y & ->). rewrite last_last, app_length. cbn [length]. replace (length ys + 1 - 1)%nat with (length ys) by lia. now rewrite nth_middle. }
  rewrite El in V by (intros E; rewrite E in L2; cbn in L2; lia). rewrite El by (intros E; rewrite E in NE; cbn in NE; lia).
  destruct (P2 (length (look d') - 1)%nat) as (T2 & _). destruct (P1 (length (look d') - 1)%nat) as (T1 & _). rewrite V in T2. rewrite T2 in T1. rewrite L2 in T1. exact T1.
Qed.
Lemma stroke_adm ks : forall a d, keeps_doc h a d -> 0 < W -> Forall editor_stroke ks ->
  (forall n, doc_fits W H h (fold_left hit (firstn n ks) d)) ->
  (forall n, tells_apart (fold_left hit (firstn n ks) d) (fold_left hit (firstn (S n) ks) d)) ->
  adm cw zw W H 0 0 true (look d) (calls area keymsg te_update lns (fun _ => None) a (flat_map stroke_msgs ks)).
Proof.
  induction ks as [|k ks IH]; intros a d K HW Hk F T; [exact Logic.I|]. inversion Hk as [|? ? Hk1 Hk2]; subst. cbn [flat_map].
  pose proof (F 1%nat) as F1. cbn [firstn fold_left] in F1.
  pose proof (hit_area h a d k K Hk1 ltac:(apply F1)) as K1.
  assert (R : adm cw zw W H 0 0 true (look (hit d k)) (calls area keymsg te_update lns (fun _ => None) (fold_left te_update (stroke_msgs k) a) (flat_map stroke_msgs ks))).
  { apply IH; auto; intros n; [exact (F (S n))|exact (T (S n))]. }
  assert (Hs1 : stroke_msgs k = [] /\ hit d k = d \/ exists m, stroke_msgs k = [m]).
  { destruct k; cbn [stroke_msgs]; eauto. unfold char_msgs. cbn [hit editor_stroke] in *. destruct (((c =? 13) || (c =? 10))) eqn:?; [eauto|]. destruct ((c =? 127) || (c =? 8)) eqn:?; [eauto|].
    destruct (c =? 9) eqn:?; [eauto|]. destruct (c =? 32) eqn:?; [eauto|]. destruct ((1 <=? c) && (c <=? 26)) eqn:?; [eauto|]. destruct (c <? 32) eqn:?; [|eauto]. left. split; [reflexivity|].
    replace (c =? 1) with false by lia. replace (c =? 2) with false by lia. replace (c =? 4) with false by lia. replace (c =? 5) with false by lia. replace (c =? 6) with false by lia. replace (c =? 14) with false by lia. replace (c =? 16) with false by lia. reflexivity. }
  destruct Hs1 as [(E & Eh)|(m & E)].
  - rewrite E in *. cbn [app fold_left] in *. rewrite <- Eh at 1. exact R.
  - rewrite E in *. cbn [app fold_left calls] in *. rewrite (lns_doc h _ _ K1). apply next_adm; auto; try (apply K); try (apply K1). exact (T 0%nat).
Qed.

Lemma strokes_area ks : forall a d, keeps_doc h a d -> Forall editor_stroke ks -> (forall n, Z.of_nat (length (lines_of (fold_left hit (firstn n ks) d))) <= h) ->
  keeps_doc h (fold_left te_update (flat_map stroke_msgs ks) a) (fold_left hit ks d).
Proof.
  induction ks as [|k ks IH]; intros a d K Hk F; [exact K|]. inversion Hk; subst. cbn [flat_map fold_left]. rewrite fold_left_app. apply IH; auto.
  - apply hit_area; auto. exact (F 1%nat).
  - intros n. exact (F (S n)).
Qed.

(** On a [W] x [H] terminal, the cursor at the start of a row and blank from there on, a program whose model is a text area of
    [h] rows: after any keystrokes, however they arrive, the area's text and cursor are those of the plain editor, and some row [top] is
    such that row [top + j] shows line [j] of the text, followed by blanks, the rows below are blank and what was above is kept,
    scrolled. *)
Theorem C340_typing_appears : forall w t ks reads,
  tw t = W -> th t = H -> pst t = Ground -> pend t = false -> cx t = 0 -> 0 <= cy t < H ->
  (forall x y, 0 <= x < W -> cy t <= y < H -> cell2 (grid t x y) = blankc) ->
  Forall editor_stroke ks -> arrives ks reads ->
  (forall n, doc_fits W H h (written (firstn n ks))) -> (forall n, tells_apart (written (firstn n ks)) (written (firstn (S n) ks))) ->
  let msgs := delivered reads in
  let a := fold_left te_update msgs (te_new w h) in
  let t' := emu cw t (snd (session zw area keymsg te_update (te_view sw) (fun _ => None) false (te_new w h) (map Handle msgs))) in
  let text := lines_of (written ks) in
  buf (core a) = text /\ row (core a) = row_of (written ks) /\ col (core a) = col_of (written ks) /\
  exists top, 0 <= top <= cy t /\
    (forall j x, 0 <= x < W -> top + Z.of_nat j < H -> cell2 (grid t' x (top + Z.of_nat j)) = (nth (Z.to_nat x) (nth j text []) 32, Single)) /\
    (forall x y, 0 <= y < top -> grid t' x y = grid t x (y + (cy t - top))).
Proof.
  intros w t ks reads T1 T2 T3 T4 T5 T6 T7 Hk Har Hfit Hap msgs a t' text.
  assert (HW : 1 < W) by (destruct (Hfit 0%nat) as (_ & _ & F3); cbn in F3; inversion F3; subst; cbn in *; lia).
  assert (Em : msgs = flat_map stroke_msgs ks).
  { apply C283_keystrokes_delivered; auto. eapply Forall_impl; [|exact Hk]. intros [c|ds k| |ps f] Hs; cbn [editor_stroke stroke_ok] in *; auto.
    destruct Hs as [Hs|[[Hs Hn]|Hs]]; [split; unfold single_width, scalar in *; lia|split; [unfold scalar; lia|]|split; unfold scalar; lia]. cbn [In] in Hn. lia. }
  assert (K0 : keeps_doc h (te_new w h) empty_doc) by (constructor; try reflexivity; repeat constructor).
  assert (Kn : forall n, keeps_doc h (fold_left te_update (flat_map stroke_msgs (firstn n ks)) (te_new w h)) (written (firstn n ks))).
  { intros n. apply strokes_area; auto.
    - rewrite <- (firstn_skipn n ks) in Hk. apply Forall_app in Hk. tauto.
    - intros m. rewrite firstn_firstn. destruct (Hfit (Nat.min m n)) as (F1 & _). exact F1. }
  assert (Ka : keeps_doc h a (written ks)).
  { unfold a. rewrite Em. pose proof (Kn (length ks)) as K. rewrite firstn_all in K. exact K. }
  assert (Hview : forall k, te_view sw (fold_left te_update (firstn k msgs) (te_new w h)) = view_bytes (lns (fold_left te_update (firstn k msgs) (te_new w h)))).
  { intros k. rewrite Em. destruct (msgs_prefix ks k) as (n & ->). rewrite (lns_doc h _ _ (Kn n)). apply (view_look sw h); [apply Kn|apply Hfit]. }
  assert (Eo : session zw area keymsg te_update (te_view sw) (fun _ => None) false (te_new w h) (map Handle msgs) =
               session zw area keymsg te_update (fun t => view_bytes (lns t)) (fun _ => None) false (te_new w h) (map Handle msgs)).
  { unfold session. assert (Eb : begin zw area (te_view sw) false (te_new w h) = begin zw area (fun t => view_bytes (lns t)) false (te_new w h)).
    { unfold begin, render_view. cbn [mdl rend susp]. pose proof (Hview 0%nat) as E0. cbn [firstn fold_left] in E0. rewrite E0. reflexivity. }
    rewrite Eb. destruct (begin zw area (fun t => view_bytes (lns t)) false (te_new w h)) as (p0, o0) eqn:E0.
    assert (Ep : mdl area p0 = te_new w h).
    { unfold begin, render_view in E0. cbn [mdl rend susp] in E0. destruct (irender _ _ _). injection E0 as <- _. reflexivity. }
    rewrite (session_ext InSpec.every sw cw zw W every_single Hcw area keymsg te_update (te_view sw) (fun t => view_bytes (lns t)) (fun _ => None) false msgs p0); [reflexivity|].
    intros k _. rewrite Ep. apply Hview. }
  assert (N0 : narrow empty_doc) by apply K0.
  assert (Ead : adm cw zw W H 0 0 false [] (SRender (lns (te_new w h)) :: calls area keymsg te_update lns (fun _ => None) (te_new w h) msgs)).
  { rewrite (lns_doc h _ _ K0). cbn [adm]. change (look empty_doc) with [@nil item]. change (keep 0 [@nil item]) with [@nil item]. change (fitted (rdw zw) 0) with (fun l : list item => l).
    split; [discriminate|]. split; [repeat constructor|]. split; [cbn; lia|]. split; [repeat constructor; cbn; lia|]. split; [congruence|]. split; [discriminate|].
    change [@nil item] with (look empty_doc). rewrite Em. apply stroke_adm; auto. lia. }
  pose proof (C255_screen_shows_the_model zw area keymsg te_update lns (fun _ => None) cw W H t (te_new w h) msgs ltac:(lia) T1 T2 T3 T4 T5 T6 T7 Ead) as C.
  cbn zeta in C.
  assert (Ean : announced keymsg (fun _ => None) msgs = (0, 0)).
  { unfold announced. generalize (0, 0). clear. induction msgs as [|x l IH]; intros z; [reflexivity|apply IH]. }
  rewrite Ean in C. destruct C as (top & R1 & R2 & R3).
  change (current area keymsg te_update (te_new w h) msgs) with a in R2. rewrite (lns_doc h a _ Ka) in R2. change (keep 0 (look (written ks))) with (look (written ks)) in R2.
  change (fitted (rdw zw) 0) with (fun l : list item => l) in R2. rewrite map_id in R2.
  split; [apply Ka|]. split; [apply Ka|]. split; [apply Ka|]. exists top. split; [exact R1|].
  assert (Et' : t' = emu cw t (snd (session zw area keymsg te_update (fun t => view_bytes (lns t)) (fun _ => None) false (te_new w h) (map Handle msgs)))) by (unfold t'; rewrite Eo; reflexivity).
  split.
  - intros j x Hx Hj. rewrite Et', (R2 j x Hx Hj). destruct (look_lines (written ks) ltac:(apply Ka)) as (_ & _ & P). destruct (P j) as (_ & Q1 & _ & Q2).
    assert (Hp : forall s, Forall single_width s -> paint cw s = map (fun c => (c, Single)) s).
    { induction 1 as [|c s Hc Hs IH]; [reflexivity|]. cbn [paint flat_map map]. destruct (Hcw c Hc) as [E1 _]. rewrite E1. cbn [Z.eqb Pos.eqb app]. f_equal. exact IH. }
    rewrite Hp by exact Q1. change blankc with ((fun c => (c, Single)) 32). rewrite map_nth. f_equal. apply Q2.
  - intros x y Hy. rewrite Et'. apply R3. exact Hy.
Qed.
End TaEe.

(** Every keystroke in a read of its own. *)
Lemma own_reads_arrive ks : arrives ks (map stroke_bytes ks).
Proof.
  split; [now rewrite flat_map_concat_map|]. intros pre k post E i.
  assert (B : forall p, boundary (map stroke_bytes ks) p -> exists n, p = length (flat_map stroke_bytes (firstn n ks))).
  { intros p (x & y & E1 & E2). exists (length x). rewrite flat_map_concat_map, <- firstn_map, E1, (proj1 (split_mid x y)). symmetry. exact E2. }
  assert (M : forall n, (length (flat_map stroke_bytes (firstn n ks)) <= i)%nat \/ (i + length (stroke_bytes k) <= length (flat_map stroke_bytes (firstn n ks)))%nat).
  { intros n. subst ks. destruct (le_lt_dec n (length pre)) as [H|H].
    - left. unfold i. rewrite firstn_app. replace (n - length pre)%nat with 0%nat by lia. cbn [firstn]. rewrite app_nil_r.
      rewrite <- (firstn_skipn n pre) at 2. rewrite flat_map_app, app_length. lia.
    - right. unfold i. rewrite firstn_app, firstn_all2 by lia. destruct (n - length pre)%nat as [|m] eqn:Em; [lia|]. cbn [firstn]. rewrite flat_map_app. cbn [flat_map]. rewrite !app_length. lia. }
  destruct k; [exact Logic.I| | |]; try (intros p Hp Hb; destruct (B _ Hb) as (n & Hn); destruct (M n); lia).
  exists (map stroke_bytes (pre ++ [Esc])), (map stroke_bytes post). split; [subst ks; rewrite <- map_app, <- app_assoc; reflexivity|].
  rewrite <- flat_map_concat_map, flat_map_app, app_length. reflexivity.
Qed.
Definition up_stroke : stroke := Fun [27; 91; 65] (named KUp).
(** Typed on an 8 x 6 terminal into an area of 4 rows: "ab", Enter, "c", Up, End, Left, "x", Down. *)
Definition ta_case : list stroke := [Chr 97; Chr 98; Chr 13; Chr 99; up_stroke; Chr 5; Chr 2; Chr 120; Chr 14].
Definition ta_reads : list (list Z) := map stroke_bytes ta_case.
Definition ta_screen (H : Z) (reads : list (list Z)) : term :=
  emu (fun _ => 1) (blank_term 8 H false) (snd (session (fun _ => false) area keymsg te_update (te_view (fun l => Z.of_nat (length l))) (fun _ => None) false (te_new 80 4) (map Handle (delivered reads)))).
Lemma doc_fits_dec W H h d : (Z.of_nat (length (lines_of d)) <=? h) && (Z.of_nat (length (lines_of d)) <=? H) && forallb (fun l => Z.of_nat (length l) + 1 <? W) (lines_of d) = true -> doc_fits W H h d.
Proof.
  intros E. apply andb_prop in E as [E E3]. apply andb_prop in E as [E1 E2]. split; [lia|]. split; [lia|]. rewrite forallb_forall in E3. apply Forall_forall. intros l Hl. specialize (E3 l Hl). lia.
Qed.
Example C340_case : Forall editor_stroke ta_case /\ arrives ta_case ta_reads /\
  (forall n, doc_fits 8 6 4 (written (firstn n ta_case))) /\ (forall n, tells_apart (written (firstn n ta_case)) (written (firstn (S n) ta_case))) /\
  written ta_case = ([[97; 120; 98]], [99], [], []) /\
  map (fun y => map (fun x => tch (grid (ta_screen 6 ta_reads) x y)) [0; 1; 2; 3]) [0; 1; 2] = [[97; 120; 98; 32]; [99; 32; 32; 32]; [32; 32; 32; 32]].
Proof.
  split; [|split; [apply own_reads_arrive|split; [|split; [|split; [reflexivity|vm_compute; reflexivity]]]]].
  - unfold ta_case, up_stroke. repeat (apply Forall_cons; [cbn [editor_stroke In csi_keys]; unfold single_width; try lia; auto 10|]). apply Forall_nil.
  - intros n. apply doc_fits_dec. do 9 (destruct n as [|n]; [vm_compute; reflexivity|]). destruct n; vm_compute; reflexivity.
  - intros n. do 9 (destruct n as [|n]; [unfold tells_apart; vm_compute; intros; lia|]). destruct n; unfold tells_apart; vm_compute; intros; lia.
Qed.

(** C341: "a", "b", "c", "c" on four lines; Up twice, Home and Backspace join the first two. *)
Definition join_case : list stroke := [Chr 97; Chr 13; Chr 98; Chr 13; Chr 99; Chr 13; Chr 99; up_stroke; up_stroke; Chr 1; Chr 127].
Definition join_reads : list (list Z) := map stroke_bytes join_case.
(** The text is "ab", "c", "c", but the terminal's third row is blank: the last line has vanished. *)
Theorem C341_last_line_vanishes_refuted : exists ks reads t, let W := 8 in let H := 6 in let h := 4 in let cw := fun _ => 1 in
  tw t = W /\ th t = H /\ pst t = Ground /\ pend t = false /\ cx t = 0 /\ cy t = 0 /\ (forall x y, cell2 (grid t x y) = blankc) /\
  Forall editor_stroke ks /\ arrives ks reads /\ (forall n, doc_fits W H h (written (firstn n ks))) /\
  let t' := emu cw t (snd (session (fun _ => false) area keymsg te_update (te_view (fun l => Z.of_nat (length l))) (fun _ => None) false (te_new 80 h) (map Handle (delivered reads)))) in
  lines_of (written ks) = [[97; 98]; [99]; [99]] /\ map (fun y => map (fun x => tch (grid t' x y)) [0; 1; 2]) [0; 1; 2; 3; 4; 5] = [[97; 98; 32]; [99; 32; 32]; [32; 32; 32]; [32; 32; 32]; [32; 32; 32]; [32; 32; 32]].
Proof.
  exists join_case, join_reads, (blank_term 8 6 false). cbv zeta. repeat (split; [reflexivity|]). split; [|split; [apply own_reads_arrive|split; [|split; [reflexivity|vm_compute; reflexivity]]]].
  - unfold join_case, up_stroke. repeat (apply Forall_cons; [cbn [editor_stroke In csi_keys]; unfold single_width; try lia; auto 10|]). apply Forall_nil.
  - intros n. apply doc_fits_dec. do 11 (destruct n as [|n]; [vm_compute; reflexivity|]). destruct n; vm_compute; reflexivity.
Qed.

(** Lines that never get fewer: the terminal shows the text. *)
Theorem C341_never_fewer_partial : forall (sw : list Z -> Z) (cw : Z -> Z) (zw : Z -> bool) (W H h : Z),
  (forall c, single_width c -> cw c = 1 /\ zw c = false) ->
  forall w t ks reads, tw t = W -> th t = H -> pst t = Ground -> pend t = false -> cx t = 0 -> 0 <= cy t < H ->
  (forall x y, 0 <= x < W -> cy t <= y < H -> cell2 (grid t x y) = blankc) ->
  Forall editor_stroke ks -> arrives ks reads -> (forall n, doc_fits W H h (written (firstn n ks))) ->
  (forall n, (length (lines_of (written (firstn n ks))) <= length (lines_of (written (firstn (S n) ks))))%nat) ->
  let t' := emu cw t (snd (session zw area keymsg te_update (te_view sw) (fun _ => None) false (te_new w h) (map Handle (delivered reads)))) in
  exists top, 0 <= top <= cy t /\
    (forall j x, 0 <= x < W -> top + Z.of_nat j < H -> cell2 (grid t' x (top + Z.of_nat j)) = (nth (Z.to_nat x) (nth j (lines_of (written ks)) []) 32, Single)).
Proof.
  intros sw cw zw W H h Hcw w t ks reads T1 T2 T3 T4 T5 T6 T7 Hk Ha Hf Hl.
  assert (Hap : forall n, tells_apart (written (firstn n ks)) (written (firstn (S n) ks))) by (intros n L; specialize (Hl n); lia).
  destruct (C340_typing_appears sw cw zw W H h Hcw w t ks reads T1 T2 T3 T4 T5 T6 T7 Hk Ha Hf Hap) as (_ & _ & _ & top & R1 & R2 & _).
  exists top. split; [exact R1|exact R2].
Qed.
Example C341_never_fewer_case : forall n, (length (lines_of (written (firstn n ta_case))) <= length (lines_of (written (firstn (S n) ta_case))))%nat.
Proof. intros n. do 9 (destruct n as [|n]; [vm_compute; lia|]). destruct n; vm_compute; lia. Qed.

Print Assumptions C340_typing_appears. Print Assumptions C341_last_line_vanishes_refuted. Print Assumptions C341_never_fewer_partial.
