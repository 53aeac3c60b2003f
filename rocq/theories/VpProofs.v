From Verif Require Import Prelude KeysModel VpModel VpSpec.

Lemma max_offset_eq n h : max_offset n h = Z.max 0 (n - h).
Proof. unfold max_offset. destruct (n <=? h) eqn:E; lia. Qed.
Lemma clamp_off_eq o m : clamp_off o m = Z.min (Z.max 0 o) (Z.max 0 m).
Proof. unfold clamp_off. destruct (o <? 0) eqn:A; destruct (m <? 0) eqn:B; match goal with |- context [if ?b then _ else _] => destruct b eqn:C end; lia. Qed.
Lemma nonneg_eq z : nonneg z = Z.max 0 z.
Proof. unfold nonneg. destruct (z <? 0) eqn:E; lia. Qed.

Ltac vnorm := unfold scroll_up, scroll_down, to_top, to_bottom, with_offset, with_follow, with_size, with_lines, with_wrap, at_off, last_screen, total in *;
  cbn [lines vw vh off follow wrapm] in *; rewrite ?clamp_off_eq, ?nonneg_eq, ?max_offset_eq in *.

Lemma scroll_up_off v n : vp_ok v -> 0 <= n -> off (scroll_up v n) = Z.max 0 (off v - n).
Proof. intros [H _ _] Hn. vnorm. destruct (_ <? 0) eqn:E; lia. Qed.
Lemma scroll_down_off v n : vp_ok v -> 0 <= n -> off (scroll_down v n) = Z.min (last_screen v) (off v + n).
Proof. intros [H _ _] Hn. vnorm. destruct (_ <? off v + n) eqn:E; lia. Qed.
Lemma with_offset_off v o : vp_ok v -> off (with_offset v o) = Z.max 0 (Z.min (last_screen v) o).
Proof. intros [H _ _]. vnorm. destruct (o <? 0) eqn:E; match goal with |- context [if ?b then _ else _] => destruct b eqn:F end; lia. Qed.

Lemma keep_ok v v' : vp_ok v -> lines v' = lines v -> vw v' = vw v -> vh v' = vh v -> 0 <= off v' <= last_screen v -> vp_ok v'.
Proof. intros [A B C] E1 E2 E3 H. constructor; rewrite ?E2, ?E3; auto. unfold last_screen in *. now rewrite E1, E3. Qed.
Lemma up_ok v n : vp_ok v -> 0 <= n -> vp_ok (scroll_up v n).
Proof. intros H Hn. eapply keep_ok; eauto. rewrite scroll_up_off by auto. destruct H. lia. Qed.
Lemma down_ok v n : vp_ok v -> 0 <= n -> vp_ok (scroll_down v n).
Proof. intros H Hn. eapply keep_ok; eauto. rewrite scroll_down_off by auto. destruct H. unfold last_screen in *. lia. Qed.
Lemma offset_ok v o : vp_ok v -> vp_ok (with_offset v o).
Proof. intros H. eapply keep_ok; eauto. rewrite with_offset_off by auto. unfold last_screen. lia. Qed.
Lemma top_ok v : vp_ok v -> vp_ok (to_top v).
Proof. intros H. eapply keep_ok; eauto. vnorm. lia. Qed.
Lemma bottom_ok v : vp_ok v -> vp_ok (to_bottom v).
Proof. intros H. eapply keep_ok; eauto. vnorm. lia. Qed.

Lemma on_key_ok v k : vp_ok v -> vp_ok (on_key v k).
Proof.
  intros H. pose proof (ok_h _ H). unfold on_key.
  repeat match goal with |- context [if ?b then _ else _] => destruct b end; auto using top_ok, bottom_ok; (apply up_ok || apply down_ok); auto; lia.
Qed.

Definition view_ok (v : view) : Prop := vp_ok (dom v) /\ 1 <= per_wheel v.
Lemma vstep_ok v o : view_ok v -> view_ok (vstep v o).
Proof.
  intros [H W]. destruct o; unfold view_ok; cbn [vstep with_dom dom per_wheel]; try (split; [|exact W]).
  - apply on_key_ok; auto.
  - destruct (mouse_on v); [|split; auto].
    assert (HU : vp_ok (scroll_up (dom v) (per_wheel v))) by (apply up_ok; auto; lia).
    assert (HD : vp_ok (scroll_down (dom v) (per_wheel v))) by (apply down_ok; auto; lia).
    assert (HO : vp_ok (with_offset (dom v) (scroll_y v - (y - drag_y v)))) by (apply offset_ok; auto).
    destruct b, a; cbn [on_mouse with_dom]; try destruct (dragging v); cbn [with_dom dom per_wheel]; split; assumption.
  - destruct H. constructor; vnorm; lia.
  - destruct H. constructor; vnorm; try lia. destruct (follow (dom v)); lia.
  - destruct H. constructor; vnorm; try lia. destruct (follow (dom v)); lia.
  - eapply keep_ok; eauto. destruct H. vnorm. destruct b; lia.
  - destruct H. constructor; auto.
  - exact H.
  - split; auto. destruct (n <? 1) eqn:E; lia.
  - apply bottom_ok; auto.
  - apply top_ok; auto.
  - apply offset_ok; auto.
Qed.
Lemma vsteps_ok os : forall v, view_ok v -> view_ok (vsteps os v).
Proof. induction os as [|o os IH]; intros v H; [exact H|]. apply IH, vstep_ok, H. Qed.
Lemma new_view_ok w h : view_ok (new_view w h).
Proof. split; [|cbn; lia]. constructor; cbn [new_view dom new_vp off vh vw lines last_screen]; unfold last_screen; cbn [lines vh new_vp length]; rewrite ?nonneg_eq; lia. Qed.

Lemma window_slice v : vp_ok v -> window (lines v) (off v) (vh v) = Some (slice_of v).
Proof.
  intros [H1 H2 _]. unfold window, slice_of, last_screen in *. destruct (_ || _) eqn:E.
  - destruct (Z.eqb_spec (Z.of_nat (length (lines v))) 0) as [E0|E0].
    + destruct (lines v); [|cbn in E0; lia]. rewrite skipn_nil, firstn_nil. reflexivity.
    + replace (vh v) with 0 by lia. reflexivity.
  - replace (off v <? 0) with false by lia. replace (_ <=? off v) with false by lia. cbv zeta.
    destruct (Z.of_nat (length (lines v)) <? off v + vh v) eqn:E1.
    + replace (_ && _ && _) with true by lia. f_equal. rewrite !firstn_all2; auto; rewrite skipn_length; lia.
    + replace (_ && _ && _) with true by lia. f_equal. f_equal. lia.
Qed.

Section W.
Variable wd : list Z -> Z.
Hypothesis wd0 : forall g, 0 <= wd g.

Lemma lw_app a b : line_width wd (a ++ b) = line_width wd a + line_width wd b.
Proof using. clear wd0. unfold line_width. induction a; cbn; [lia|]. rewrite IHa. lia. Qed.
Lemma lw_nonneg a : 0 <= line_width wd a.
Proof. unfold line_width. induction a as [|g a IH]; cbn; [lia|]. pose proof (wd0 g). lia. Qed.

Lemma truncate_from_spec l : forall cur w, cur <= w -> exists r, l = truncate_from wd l cur w ++ r /\
  cur + line_width wd (truncate_from wd l cur w) <= w /\
  match r with [] => True | g :: _ => w < cur + line_width wd (truncate_from wd l cur w ++ [g]) end.
Proof.
  induction l as [|g l IH]; intros cur w H; cbn [truncate_from].
  - exists []. cbn. repeat split; auto. lia.
  - destruct (w <? cur + wd g) eqn:E.
    + exists (g :: l). cbn. repeat split; auto; lia.
    + destruct (IH (cur + wd g) w ltac:(lia)) as (r & A & B & C). exists r. cbn [app]. rewrite <- A. split; auto.
      change (line_width wd (g :: truncate_from wd l (cur + wd g) w)) with (wd g + line_width wd (truncate_from wd l (cur + wd g) w)).
      split; [lia|]. destruct r as [|h r]; auto.
      change (line_width wd (g :: (truncate_from wd l (cur + wd g) w ++ [h]))) with (wd g + line_width wd (truncate_from wd l (cur + wd g) w ++ [h])). lia.
Qed.
Lemma truncate_longest l w : 0 < w -> longest_fit wd l (truncate_line wd l w) w.
Proof.
  intros H. unfold truncate_line, longest_fit. replace (w <=? 0) with false by lia. destruct (truncate_from_spec l 0 w ltac:(lia)) as (r & A & B & C).
  exists r. repeat split; auto; destruct r; auto; lia.
Qed.

Lemma wrap_from_concat l : forall cur cw w, concat (wrap_from wd l cur cw w) = cur ++ l.
Proof.
  induction l as [|g l IH]; intros cur cw w; cbn [wrap_from].
  - destruct cur; cbn; rewrite ?app_nil_r; auto.
  - destruct (_ && _); cbn [concat]; rewrite IH; [reflexivity|]. now rewrite <- app_assoc.
Qed.
(** A segment fits, or consists of invisible clusters followed by one cluster that cannot fit. *)
Definition seg_ok (w : Z) (s : vline) : Prop :=
  line_width wd s <= w \/ exists z g, s = z ++ [g] /\ line_width wd z = 0 /\ w < wd g.
Lemma wrap_from_width l : forall cur w, seg_ok w cur -> Forall (seg_ok w) (wrap_from wd l cur (line_width wd cur) w).
Proof.
  induction l as [|g l IH]; intros cur w H; cbn [wrap_from].
  - destruct cur; constructor; auto.
  - destruct (_ && _) eqn:E.
    + constructor; auto. replace (wd g) with (line_width wd [g]) by (cbn; lia). apply IH.
      destruct (Z.le_gt_cases (wd g) w); [left; cbn; lia|right; exists [], g; cbn; auto].
    + replace (line_width wd cur + wd g) with (line_width wd (cur ++ [g])) in * by (rewrite lw_app; cbn; lia). apply IH.
      rewrite lw_app in E. cbn in E. pose proof (lw_nonneg cur). pose proof (wd0 g).
      destruct (Z.eq_dec (line_width wd cur) 0) as [Z0|Z0].
      * destruct (Z.le_gt_cases (wd g) w); [left; rewrite lw_app; cbn; lia|right]. exists cur, g. auto.
      * left. rewrite lw_app. cbn. lia.
Qed.
Lemma wrap_from_nonempty l : forall cur cw w, (0 < cw -> cur <> []) -> Forall (fun s => s <> []) (wrap_from wd l cur cw w).
Proof using. clear wd0.
  induction l as [|g l IH]; intros cur cw w H; cbn [wrap_from].
  - destruct cur; constructor; auto. discriminate.
  - destruct (_ && _) eqn:E; [constructor; [apply H; lia|]|]; apply IH; intros _; [discriminate|destruct cur; discriminate].
Qed.
(** A segment is only ended when the next cluster does not fit any more. *)
Lemma wrap_from_head l : forall cur cw w, cur <> [] -> exists r t, wrap_from wd l cur cw w = (cur ++ r) :: t.
Proof using. clear wd0.
  induction l as [|g l IH]; intros cur cw w H; cbn [wrap_from].
  - destruct cur; [congruence|]. exists [], []. now rewrite app_nil_r.
  - destruct (_ && _).
    + exists [], (wrap_from wd l [g] (wd g) w). now rewrite app_nil_r.
    + destruct (IH (cur ++ [g]) (cw + wd g) w) as (r & t & E); [destruct cur; discriminate|]. exists (g :: r), t. rewrite E. now rewrite <- app_assoc.
Qed.
Lemma wrap_from_greedy l : forall cur w a s g r b, wrap_from wd l cur (line_width wd cur) w = a ++ s :: (g :: r) :: b -> w < line_width wd (s ++ [g]).
Proof using.
  clear wd0.
  induction l as [|g0 l IH]; intros cur w a s g r b H; cbn [wrap_from] in H.
  - destruct cur; [destruct a; discriminate|]. destruct a as [|x [|y a]]; discriminate.
  - destruct (_ && _) eqn:E.
    + replace (wd g0) with (line_width wd [g0]) in H by (cbn; lia).
      destruct a as [|x a].
      * cbn [app] in H. pose proof (f_equal (hd []) H) as H1. pose proof (f_equal (@tl _) H) as H2. cbn [hd tl] in H1, H2. subst s. destruct (wrap_from_head l [g0] (line_width wd [g0]) w) as (r' & t & E'); [discriminate|].
        rewrite E' in H2. pose proof (f_equal (fun x => hd [] (hd [] x)) H2) as H3. cbn [hd app] in H3. subst g. rewrite lw_app. cbn [line_width fold_right]. lia.
      * cbn [app] in H. pose proof (f_equal (@tl _) H) as H2. cbn [tl] in H2. eapply IH; eauto.
    + replace (line_width wd cur + wd g0) with (line_width wd (cur ++ [g0])) in H by (rewrite lw_app; cbn [line_width fold_right]; lia). eapply IH; eauto.
Qed.
End W.

Lemma slice_snoc v pre l : vp_ok v -> 1 <= vh v -> off v = last_screen v -> lines v = pre ++ [l] -> last_line_shown v.
Proof.
  intros [H1 H2 _] Hh Ho E pre' l' E'. rewrite E in E'. apply app_inj_tail in E' as [<- <-]. unfold slice_of, last_screen in *. rewrite E in *.
  rewrite app_length in *. cbn [length] in *.
  exists (skipn (Z.to_nat (off v)) pre). rewrite firstn_all2 by (rewrite skipn_length, app_length; cbn; lia).
  rewrite skipn_app. replace (Z.to_nat (off v) - length pre)%nat with 0%nat by lia. cbn [skipn]. split; auto. rewrite skipn_length. lia.
Qed.
