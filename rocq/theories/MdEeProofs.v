(** Rows placed on the screen with cursor addresses, through the inline renderer. *)
From Coq Require Import Sorted.
From Verif Require Import Prelude Utf8 TermEmu InlineModel InlineEmu InlineFrames.
From Verif Require RenderEmu RenderModel MdModel MdEeModel.
Notation row := MdModel.row. Notation rrow := MdModel.rrow. Notation rcol := MdModel.rcol. Notation cells := MdModel.cells. Notation row_line := MdEeModel.row_line.

Lemma nondigit_split s a b x y : is_digit s = false -> forallb is_digit a = true -> forallb is_digit b = true -> a ++ s :: x = b ++ s :: y -> a = b /\ x = y.
Proof.
  intros Hs. revert b. induction a as [|c a IH]; intros [|d b] Ha Hb E; cbn [app forallb] in *.
  - injection E as E. auto.
  - injection E as E1 E2. subst d. rewrite Hs in Hb. discriminate.
  - injection E as E1 E2. subst c. rewrite Hs in Ha. discriminate.
  - injection E as E1 E2. subst d. apply andb_true_iff in Ha as [_ Ha]. apply andb_true_iff in Hb as [_ Hb]. destruct (IH b Ha Hb E2) as [-> ->]. auto.
Qed.
Lemma dec_digits n : 0 <= n -> forallb is_digit (dec n) = true.
Proof. intros H. destruct (dec_spec n H) as (_ & A & _). exact A. Qed.
Lemma row_line_inj a b : 0 <= rrow a -> 0 <= rcol a -> 0 <= rrow b -> 0 <= rcol b -> Forall scalar (cells a) -> Forall scalar (cells b) ->
  row_line a = row_line b -> a = b.
Proof.
  destruct a as [r c l], b as [r' c' l']. unfold MdEeModel.row_line. cbn [MdModel.rrow MdModel.rcol MdModel.cells]. intros A B C D S1 S2 E.
  injection E as E. cbn [app] in E. destruct (nondigit_split 59 _ _ _ _ eq_refl (dec_digits _ A) (dec_digits _ C) E) as [E1 E2].
  destruct (nondigit_split 72 _ _ _ _ eq_refl (dec_digits _ B) (dec_digits _ D) E2) as [E3 E4].
  apply dec_inj in E1; auto. apply dec_inj in E3; auto. apply (f_equal runes_of) in E4. rewrite !runes_of_enc in E4 by auto. now subst.
Qed.
Lemma row_line_no_nl r : 0 <= rrow r -> 0 <= rcol r -> Forall (fun c => scalar c /\ 32 <= c) (cells r) -> ~ In 10 (row_line r).
Proof.
  intros A B F. unfold MdEeModel.row_line. cbn [In app]. rewrite in_app_iff. cbn [In]. rewrite in_app_iff. cbn [In].
  assert (D : forall n, 0 <= n -> ~ In 10 (dec n)) by (intros n Hn I; pose proof (dec_digits n Hn) as Q; rewrite forallb_forall in Q; specialize (Q 10 I); discriminate Q).
  assert (X : ~ In 10 (enc (cells r))).
  { intros I. unfold enc in I. apply in_flat_map in I as (c & Hc & I). rewrite Forall_forall in F. destruct (F c Hc) as [S1 S2].
    destruct (Z_lt_dec c 128) as [L|L].
    - unfold enc_rune in I. replace (c <? 128) with true in I by lia. destruct I as [I|[]]. lia.
    - pose proof (enc_rune_high c ltac:(lia) S1) as Q. rewrite Forall_forall in Q. specialize (Q 10 I). lia. }
  intros H; repeat destruct H as [H|H]; try lia; try discriminate; [eapply D; [|exact H]; auto|eapply D; [|exact H]; auto|auto].
Qed.
Lemma split_rows ls : Forall (fun l => ~ In 10 l) ls -> split_nl (flat_map (fun l => l ++ [10]) ls) = ls ++ [[]].
Proof.
  induction 1 as [|l ls Hl Hls IH]; [reflexivity|]. cbn [flat_map app]. rewrite <- app_assoc. rewrite split_nl_app by auto. cbn [app split_nl]. cbn [Z.eqb Pos.eqb]. rewrite IH. now rewrite app_nil_r.
Qed.

Lemma up_low n : Forall (fun x => 0 <= x < 128) (cursor_up n).
Proof.
  unfold cursor_up. destruct (n <=? 0) eqn:E; [constructor|]. do 2 (constructor; [lia|]). apply Forall_app. split; [|repeat constructor; lia].
  pose proof (dec_digits n ltac:(lia)) as Q. apply Forall_forall; intros x I; rewrite forallb_forall in Q; specialize (Q x I); unfold is_digit in Q; lia.
Qed.

Section Screen.
Variables (cw : Z -> Z) (W H : Z).
Notation emu := (InlineEmu.emu cw).
Notation feeds := (TermEmu.feeds cw).

Definition row_ok (r : row) : Prop :=
  1 <= rrow r < H /\ 1 <= rcol r /\ rcol r - 1 + Z.of_nat (length (cells r)) < W /\ Forall (fun c => scalar c /\ 32 <= c /\ c <> 127 /\ cw c = 1) (cells r).
(** The row's characters are on the screen, at the row's place. *)
Definition on_screen (t : term) (r : row) : Prop := forall i c, nth_error (cells r) i = Some c -> tch (grid t (rcol r - 1 + Z.of_nat i) (rrow r - 1)) = c.
Definition good (t : term) : Prop := tw t = W /\ th t = H /\ pst t = Ground /\ (forall x y, tkind (grid t x y) = Single).

Lemma put_cells s : forall t, good t -> pend t = false -> 0 <= cx t -> cx t + Z.of_nat (length s) < W -> Forall (fun c => scalar c /\ 32 <= c /\ c <> 127 /\ cw c = 1) s ->
  let t' := feeds t s in good t' /\ cx t' = cx t + Z.of_nat (length s) /\ cy t' = cy t /\
  (forall i c, nth_error s i = Some c -> tch (grid t' (cx t + Z.of_nat i) (cy t)) = c) /\ (forall x y, y <> cy t \/ x < cx t -> grid t' x y = grid t x y).
Proof using.
  induction s as [|c s IH]; intros t G Pd X L F; cbn [length] in L.
  - split; [exact G|]. cbn. split; [lia|]. split; [reflexivity|]. split; [intros [|i]; discriminate|auto].
  - cbv zeta. inversion F as [|? ? (C1 & C2 & C3 & C4) F']; subst. rewrite RenderEmu.feeds_cons. destruct G as (G1 & G2 & G3 & G4).
    rewrite (RenderEmu.feed_char cw t c G3 C2 C3 C4 ltac:(lia) Pd (G4 _ _)). cbv zeta. rewrite G1. replace (cx t + 1 <? W) with true by lia.
    set (t1 := set_cur _ _ _ _). assert (Gt : good t1).
    { unfold good, t1. cbn. repeat split; auto. intros x y. unfold gset. destruct (_ && _); auto. }
    destruct (IH t1 Gt eq_refl ltac:(unfold t1; cbn [cx set_cur set_grid]; lia) ltac:(unfold t1; cbn [cx set_cur set_grid]; lia) F') as (A & B & C & D & E'). unfold t1 in B, C, D, E'; fold t1 in B, C, D, E'; change (cx t1) with (cx t + 1) in *; change (cy t1) with (cy t) in *.
    split; [exact A|]. split; [cbn [length]; lia|]. split; [exact C|]. split.
    + intros [|i] c' E; cbn [nth_error] in E.
      * apply some_inj in E. subst c'. rewrite E' by lia. unfold t1. cbn [grid set_cur set_grid]. replace (cx t + Z.of_nat 0) with (cx t) by lia. now rewrite gset_same.
      * replace (cx t + Z.of_nat (S i)) with (cx t + 1 + Z.of_nat i) by lia. apply D. exact E.
    + intros x y Hxy. rewrite E' by lia. unfold t1. cbn [grid set_cur set_grid]. apply (gset_other cw (fun _ => false)). lia.
Qed.

Lemma draw_row t r b : good t -> row_ok r ->
  exists t', emu t (row_line r ++ erase_right ++ b) = emu t' b /\ good t' /\ on_screen t' r /\ cy t' = rrow r - 1 /\ (forall x y, y <> rrow r - 1 -> grid t' x y = grid t x y).
Proof using.
  intros G (R1 & R2 & R3 & R4). pose proof G as (G1 & G2 & G3 & G4).
  assert (Sc : Forall scalar (cells r)) by (eapply Forall_impl; [|exact R4]; cbn; tauto).
  assert (E0 : row_line r ++ erase_right ++ b = RenderModel.move_cursor_code (rcol r - 1) (rrow r - 1) ++ (enc (cells r) ++ erase_right ++ b)).
  { unfold MdEeModel.row_line. change (RenderModel.move_cursor_code (rcol r - 1) (rrow r - 1)) with (27 :: 91 :: dec (rrow r - 1 + 1) ++ (59 :: dec (rcol r - 1 + 1)) ++ [72]).
    replace (rrow r - 1 + 1) with (rrow r) by lia. replace (rcol r - 1 + 1) with (rcol r) by lia. cbn [app]. rewrite <- !app_assoc. cbn [app]. rewrite <- ?app_assoc. reflexivity. }
  rewrite E0. rewrite (emu_low cw (fun _ => false)).
  2:{ change (RenderModel.move_cursor_code (rcol r - 1) (rrow r - 1)) with (27 :: 91 :: dec (rrow r - 1 + 1) ++ (59 :: dec (rcol r - 1 + 1)) ++ [72]).
      assert (D : forall n, 0 <= n -> Forall (fun x => 0 <= x < 128) (dec n)) by (intros n Hn; pose proof (dec_digits n Hn) as Q; apply Forall_forall; intros x I; rewrite forallb_forall in Q; specialize (Q x I); unfold is_digit in Q; lia).
      do 2 (constructor; [lia|]). apply Forall_app. split; [apply D; lia|]. apply Forall_app. split; [constructor; [lia|apply D; lia]|repeat constructor; lia]. }
  rewrite RenderEmu.feeds_move by (rewrite ?G1, ?G2; auto; lia). set (t0 := set_cur t _ _ _).
  assert (G0 : good t0) by (unfold good, t0; cbn; auto). rewrite emu_enc by auto.
  destruct (put_cells (cells r) t0 G0 eq_refl ltac:(unfold t0; cbn [cx set_cur]; lia) ltac:(unfold t0; cbn [cx set_cur]; lia) R4) as (A & B & C & D & E'). change (cx t0) with (rcol r - 1) in *. change (cy t0) with (rrow r - 1) in *.
  set (t1 := feeds t0 (cells r)) in *. rewrite (emu_low cw (fun _ => false)) by (repeat constructor; lia). pose proof A as (A1 & A2 & A3 & A4). rewrite feeds_el by auto.
  eexists. split; [reflexivity|]. split; [|split; [|split; [|]]].
  - unfold good. cbn [erase_where set_grid tw th pst grid]. repeat split; auto. intros x y. destruct (_ && _); auto.
  - intros i c Hi. cbn [erase_where set_grid grid]. rewrite B, C. assert (Li : (i < length (cells r))%nat) by (apply nth_error_Some; congruence).
    replace ((rrow r - 1 =? rrow r - 1) && (rcol r - 1 + Z.of_nat (length (cells r)) <=? rcol r - 1 + Z.of_nat i)) with false by lia. apply D. exact Hi.
  - cbn. exact C.
  - intros x y Hy. cbn [erase_where set_grid grid]. rewrite C. replace (y =? rrow r - 1) with false by lia. cbn [andb]. rewrite E' by lia. reflexivity.
Qed.

Lemma on_screen_same t t' r : (forall x, grid t' x (rrow r - 1) = grid t x (rrow r - 1)) -> on_screen t r -> on_screen t' r.
Proof using. intros E O i c Hi. rewrite E. auto. Qed.

Definition above (a b : row) : Prop := rrow a < rrow b.
Lemma sorted_room r rows : StronglySorted above (r :: rows) -> Forall row_ok (r :: rows) -> rrow r + Z.of_nat (length rows) <= H - 1.
Proof using.
  revert r. induction rows as [|a rows IH]; intros r S F; cbn [length].
  - inversion F as [|? ? (A & _)]; subst. lia.
  - apply StronglySorted_inv in S as [S S']. inversion F; subst. specialize (IH a S ltac:(auto)). inversion S' as [|? ? Q]; subst. unfold above in Q. lia.
Qed.

Lemma crlf_step t b : good t -> 0 <= cy t -> cy t + 1 < H ->
  exists t', emu t (crlf ++ b) = emu t' b /\ good t' /\ grid t' = grid t /\ cx t' = 0 /\ cy t' = cy t + 1.
Proof using.
  intros (G1 & G2 & G3 & G4) C1 C2. rewrite (emu_low cw (fun _ => false)) by (repeat constructor; lia). rewrite feeds_crlf by auto. unfold line_feed. cbn [cy th set_cur cx]. rewrite G2. replace (cy t + 1 <? H) with true by lia.
  eexists. split; [reflexivity|]. cbn. split; [unfold good; cbn; auto|]. auto.
Qed.


Lemma out_rows zw last rows : forall i t b dn, good t -> 0 <= cy t -> (cy t + Z.of_nat (length rows) <= H - 1 \/ (rows <> [] /\ line_at last i = None)) -> Forall row_ok rows -> StronglySorted above rows ->
  (forall d r, In d dn -> In r rows -> above d r) -> Forall (on_screen t) dn ->
  (forall j r, nth_error rows j = Some r -> line_at last (i + j) = Some (row_line r) -> on_screen t r) ->
  (line_at last (i + length rows) = Some [] \/ ((forall j, line_at last (i + j) = None) /\ Forall (fun d => rrow d - 1 < cy t) dn)) ->
  exists t', emu t (out_lines zw 0 last i (map row_line rows ++ [[]]) ++ b) = emu t' b /\ good t' /\ 0 <= cy t' <= H - 1 /\ Forall (on_screen t') (dn ++ rows).
Proof using.
  induction rows as [|r rows IH]; intros i t b dn G C0 C1 Ok St Ab On Old Fin.
  - cbn [map app out_lines length Z.of_nat] in *. rewrite (app_nil_r dn). rewrite Nat.add_0_r in Fin. destruct Fin as [-> | [N D]].
    + cbn [list_eqb app]. exists t. split; [reflexivity|]. split; [exact G|]. split; [destruct C1 as [C1|[C1 _]]; [cbn [length Z.of_nat] in C1; lia|congruence]|exact On].
    + specialize (N 0%nat). rewrite Nat.add_0_r in N. rewrite N. cbn [Z.ltb Z.compare app]. rewrite ?app_nil_r. rewrite (emu_low cw (fun _ => false)) by (repeat constructor; lia).
      destruct G as (G1 & G2 & G3 & G4). rewrite feeds_el by auto. eexists. split; [reflexivity|]. split; [|split].
      * unfold good. cbn [erase_where set_grid tw th pst grid]. repeat split; auto. intros x y. destruct (_ && _); auto.
      * destruct C1 as [C1|[C1 _]]; [|congruence]. cbn. lia.
      * rewrite Forall_forall in *. intros d Id. eapply on_screen_same; [|apply On; exact Id]. intros x. cbn [erase_where set_grid grid]. specialize (D d Id). cbn in D. replace (rrow d - 1 =? cy t) with false by lia. reflexivity.
  - cbn [map app out_lines length]. replace (match map row_line rows ++ [[]] with [] => [] | _ :: _ => crlf end) with crlf by (destruct rows; reflexivity).
    cbn [Z.ltb Z.compare]. apply StronglySorted_inv in St as [St Sr]. inversion Ok as [|? ? Okr Okl]; subst.
    assert (Ab' : forall d r', In d (dn ++ [r]) -> In r' rows -> above d r').
    { intros d r' Id Ir. apply in_app_iff in Id as [Id|[<-|[]]]; [apply Ab; [auto|right; auto]|]. rewrite Forall_forall in Sr. auto. }
    assert (Skip : forall t1, good t1 -> 0 <= cy t1 -> cy t1 + 1 + Z.of_nat (length rows) <= H - 1 -> Forall (on_screen t1) (dn ++ [r]) ->
      (forall j r', nth_error rows j = Some r' -> line_at last (S i + j) = Some (row_line r') -> on_screen t1 r') ->
      (line_at last (S i + length rows) = Some [] \/ ((forall j, line_at last (S i + j) = None) /\ Forall (fun d => rrow d - 1 < cy t1 + 1) (dn ++ [r]))) ->
      exists t', emu t1 ((crlf ++ out_lines zw 0 last (S i) (map row_line rows ++ [[]])) ++ b) = emu t' b /\ good t' /\ 0 <= cy t' <= H - 1 /\ Forall (on_screen t') (dn ++ r :: rows)).
    { intros t1 G1 A1 A2 A3 A4 A5. rewrite <- app_assoc. destruct (crlf_step t1 (out_lines zw 0 last (S i) (map row_line rows ++ [[]]) ++ b) G1 A1 ltac:(lia)) as (t2 & -> & G2 & Eg & _ & Ec).
      destruct (IH (S i) t2 b (dn ++ [r]) G2 ltac:(lia) ltac:(left; lia) Okl St Ab') as (t' & E1 & E2 & E3 & E4).
      - eapply Forall_impl; [|exact A3]. intros d. apply on_screen_same. intros x. now rewrite Eg.
      - intros j r' Hj Hl. eapply on_screen_same; [|eapply A4; eauto]. intros x. now rewrite Eg.
      - rewrite Ec. exact A5.
      - exists t'. rewrite <- app_assoc in E4. auto. }
    assert (Draw : line_at last i <> Some (row_line r) -> exists t', emu t ((row_line r ++ erase_right ++ crlf ++ out_lines zw 0 last (S i) (map row_line rows ++ [[]])) ++ b) = emu t' b /\ good t' /\ 0 <= cy t' <= H - 1 /\ Forall (on_screen t') (dn ++ r :: rows)).
    { intros _. rewrite <- !app_assoc. destruct (draw_row t r (crlf ++ out_lines zw 0 last (S i) (map row_line rows ++ [[]]) ++ b) G Okr) as (t1 & -> & G1 & O1 & Ec & Eg).
      rewrite app_assoc. pose proof (sorted_room r rows ltac:(constructor; auto) Ok) as Rm. apply Skip; auto.
      - destruct Okr as ((R1 & R2) & _). lia.
      - lia.
      - apply Forall_app. split; [|auto]. rewrite Forall_forall in *. intros d Id. eapply on_screen_same; [|apply On; exact Id]. intros x. apply Eg. specialize (Ab d r Id (or_introl eq_refl)). unfold above in Ab. lia.
      - intros j r' Hj Hl. eapply on_screen_same; [|eapply (Old (S j)); [exact Hj|rewrite <- Hl; f_equal; lia]]. intros x. apply Eg. apply nth_error_In in Hj. rewrite Forall_forall in Sr. specialize (Sr r' Hj). unfold above in Sr. lia.
      - destruct Fin as [Fin|[N D]]; [left; rewrite <- Fin; f_equal; cbn [length]; lia|right]. split; [intros j; rewrite <- (N (S j)); f_equal; lia|].
        rewrite Ec. apply Forall_app. split; [|constructor; [lia|auto]]. rewrite Forall_forall in *. intros d Id. specialize (Ab d r Id (or_introl eq_refl)). unfold above in Ab. lia. }
    destruct (line_at last i) as [l0|] eqn:L; [|apply Draw; congruence].
    destruct (list_eqb l0 (row_line r)) eqn:E.
    + apply list_eqb_eq in E. subst l0. destruct C1 as [C1|[_ C1]]; [|congruence]. cbn [length] in C1. apply Skip; auto; try lia.
      * apply Forall_app. split; [auto|]. constructor; [|auto]. apply (Old 0%nat r); [reflexivity|]. rewrite Nat.add_0_r. exact L.
      * intros j r' Hj Hl. apply (Old (S j) r'); [exact Hj|]. rewrite <- Hl. f_equal. lia.
      * destruct Fin as [Fin|[N D]]; [left; rewrite <- Fin; f_equal; cbn [length]; lia|]. specialize (N 0%nat). rewrite Nat.add_0_r in N. congruence.
    + apply Draw. intros Q. apply some_inj in Q. subst l0. rewrite list_eqb_refl in E. discriminate.
Qed.

Definition drawn (rows : list row) : list Z := flat_map (fun r => row_line r ++ [10]) rows.
Lemma split_drawn rows : Forall row_ok rows -> split_nl (drawn rows) = map row_line rows ++ [[]].
Proof using.
  intros F. unfold drawn. replace (flat_map (fun r => row_line r ++ [10]) rows) with (flat_map (fun l => l ++ [10]) (map row_line rows)).
  - apply split_rows. apply Forall_map. eapply Forall_impl; [|exact F]. intros r (R1 & R2 & R3 & R4). apply row_line_no_nl; try lia. eapply Forall_impl; [|exact R4]. cbn. tauto.
  - clear F. induction rows as [|r rows IH]; [reflexivity|]. cbn [map flat_map]. now rewrite IH.
Qed.
Lemma row_ok_inj a b : row_ok a -> row_ok b -> row_line a = row_line b -> a = b.
Proof using.
  intros (A1 & A2 & A3 & A4) (B1 & B2 & B3 & B4). apply row_line_inj; try lia; eapply Forall_impl; [|exact A4| |exact B4]; cbn; tauto.
Qed.
Record shown (r : irend) (t : term) (rows : list row) : Prop := Shown {
  s_w : iw r = 0; s_h : ih r = 0; s_view : last_view r = drawn rows; s_lines : last_lines r = map row_line rows ++ [[]]; s_n : nrend r = S (length rows);
  s_good : good t; s_cy : 0 <= cy t <= H - 1; s_on : Forall (on_screen t) rows; s_ok : Forall row_ok rows; s_st : StronglySorted above rows; s_ne : rows <> [] }.
Lemma cr_step t b : good t -> exists t', emu t ([13] ++ b) = emu t' b /\ good t' /\ grid t' = grid t /\ cy t' = cy t.
Proof using.
  intros (G1 & G2 & G3 & G4). rewrite (emu_low cw (fun _ => false)) by (repeat constructor; lia). rewrite feeds_cr by auto. eexists. split; [reflexivity|]. split; [unfold good; cbn; auto|]. auto.
Qed.
Lemma clip0 ls : clip 0 ls = ls.
Proof using. unfold clip. reflexivity. Qed.

Lemma first_frame zw t rows b : good t -> 0 <= cy t -> rows <> [] -> Forall row_ok rows -> StronglySorted above rows ->
  exists t', emu t (snd (irender zw (new_inline 0 0) (drawn rows)) ++ b) = emu t' b /\ shown (fst (irender zw (new_inline 0 0) (drawn rows))) t' rows.
Proof using.
  intros G C N Ok St. unfold irender. cbn [last_view new_inline nrend iw ih last_lines Z.of_nat Z.ltb Z.compare andb Nat.ltb Nat.leb]. rewrite andb_false_r. cbn [fst snd]. rewrite clip0, split_drawn by auto.
  replace (length (map row_line rows ++ [[]]) <? 0)%nat with false by reflexivity. cbn [app]. rewrite <- app_assoc.
  change (13 :: out_lines zw 0 [] 0 (map row_line rows ++ [[]]) ++ [13] ++ b) with ([13] ++ out_lines zw 0 [] 0 (map row_line rows ++ [[]]) ++ [13] ++ b).
  destruct (cr_step t (out_lines zw 0 [] 0 (map row_line rows ++ [[]]) ++ [13] ++ b) G) as (t1 & -> & G1 & Eg & Ec).
  assert (NL : forall j, line_at [] j = None) by (intros [|j]; reflexivity).
  destruct (out_rows zw [] rows 0 t1 ([13] ++ b) [] G1 ltac:(lia) (or_intror (conj N (NL _))) Ok St) as (t2 & -> & G2 & C2 & O2).
  - intros d r [].
  - constructor.
  - intros j r _ Hl. rewrite NL in Hl. discriminate.
  - right. split; [intros j; apply NL|constructor].
  - destruct (cr_step t2 b G2) as (t3 & -> & G3 & Eg3 & Ec3). exists t3. split; [reflexivity|]. cbn [app] in O2. constructor; auto; cbn [iw ih last_view last_lines nrend].
    + rewrite app_length, map_length. cbn [length]. lia.
    + lia.
    + eapply Forall_impl; [|exact O2]. intros d. apply on_screen_same. intros x. now rewrite Eg3.
Qed.
Lemma next_frame zw r t rows rows' b : shown r t rows -> Forall row_ok rows' -> StronglySorted above rows' -> length rows' = length rows ->
  exists t', emu t (snd (irender zw r (drawn rows')) ++ b) = emu t' b /\ shown (fst (irender zw r (drawn rows'))) t' rows'.
Proof using.
  intros S Ok' St' L. destruct S as [Sw Sh Sv Sl Sn Sg Sc So Sok Sst Sne]. unfold irender.
  destruct (list_eqb (drawn rows') (last_view r) && (0 <? Z.of_nat (nrend r))) eqn:E.
  - apply andb_true_iff in E as [E _]. apply list_eqb_eq in E. rewrite Sv in E. assert (rows' = rows).
    { apply (f_equal split_nl) in E. rewrite !split_drawn in E by auto. apply app_inv_tail in E. clear - Ok' Sok E. revert rows E Sok. induction rows' as [|a l IH]; intros [|b m] E Sok; try discriminate; [reflexivity|].
      pose proof (f_equal (hd []) E) as E1. pose proof (f_equal (@tl (list Z)) E) as E2. cbn [map hd tl] in E1, E2. inversion Ok'; inversion Sok; subst. f_equal; [apply row_ok_inj; auto|apply IH; auto]. }
    subst rows'. exists t. cbn [fst snd app]. split; [reflexivity|]. constructor; auto.
  - cbn [fst snd]. rewrite Sw, Sh, Sl, Sn, clip0, split_drawn by auto.
    assert (LL : length (map row_line rows' ++ [[]]) = S (length rows)) by (rewrite app_length, map_length; cbn [length]; lia). rewrite LL.
    replace (S (length rows) <? S (length rows))%nat with false by (symmetry; apply Nat.ltb_irrefl). assert (P1 : (0 < length rows)%nat) by (destruct rows; [congruence|cbn [length]; lia]).
    replace (1 <? S (length rows))%nat with true by (symmetry; apply Nat.ltb_lt; lia). replace (Z.of_nat (S (length rows)) - 1) with (Z.of_nat (length rows)) by lia. cbn [app]. rewrite <- !app_assoc. cbn [app]. rewrite <- !app_assoc.
    pose proof Sg as (G1 & G2 & G3 & G4).
    set (o := 13 :: _).
    rewrite (emu_low cw (fun _ => false)) by apply up_low. rewrite (feeds_up cw (fun _ => false)) by (auto; lia). set (t0 := set_cur t _ _ _).
    assert (G0 : good t0) by (unfold good, t0; cbn; auto). replace o with ([13] ++ out_lines zw 0 (map row_line rows ++ [[]]) 0 (map row_line rows' ++ [[]]) ++ [13] ++ b) by reflexivity. clear o.
    destruct (cr_step t0 (out_lines zw 0 (map row_line rows ++ [[]]) 0 (map row_line rows' ++ [[]]) ++ [13] ++ b) G0) as (t1 & -> & Gd1 & Eg & Ec). change (cy t0) with (Z.max 0 (cy t - Z.of_nat (length rows))) in Ec. change (grid t0) with (grid t) in Eg.
    assert (Rm : Z.of_nat (length rows) <= H - 1).
    { destruct rows as [|a l]; [congruence|]. pose proof (sorted_room a l Sst Sok). inversion Sok as [|? ? (A & _)]; subst. cbn [length]. lia. }
    destruct (out_rows zw (map row_line rows ++ [[]]) rows' 0 t1 ([13] ++ b) [] Gd1 ltac:(lia) ltac:(left; lia) Ok' St') as (t2 & -> & Gd2 & C2 & O2).
    + intros d x [].
    + constructor.
    + intros k x Hk Hl. cbn [Nat.add] in Hl. unfold line_at in Hl. assert (Lk : (k < length rows)%nat) by (rewrite <- L; apply nth_error_Some; congruence).
      rewrite nth_error_app1 in Hl by (rewrite map_length; lia). rewrite nth_error_map in Hl. destruct (nth_error rows k) as [y|] eqn:Ey; [|discriminate]. cbn [option_map] in Hl. apply some_inj in Hl.
      rewrite Forall_forall in Ok', Sok, So. apply nth_error_In in Hk, Ey. apply row_ok_inj in Hl; auto. subst y. eapply on_screen_same; [|apply So; exact Ey]. intros z. now rewrite Eg.
    + left. cbn [Nat.add]. unfold line_at. rewrite nth_error_app2 by (rewrite map_length; lia). rewrite map_length, L, Nat.sub_diag. reflexivity.
    + destruct (cr_step t2 b Gd2) as (t3 & -> & Gd3 & Eg3 & Ec3). exists t3. split; [reflexivity|]. cbn [app] in O2. constructor; auto; cbn [iw ih last_view last_lines nrend].
      * lia.
      * lia.
      * eapply Forall_impl; [|exact O2]. intros d. apply on_screen_same. intros x. now rewrite Eg3.
      * intros ->. cbn [length] in L. lia.
Qed.

End Screen.
