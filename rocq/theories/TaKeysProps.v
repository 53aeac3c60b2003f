(** More about the text area: key names, positioning, reports to the host, the visible lines
    (C21, C26, C61, C62). *)
From Verif Require Import Prelude Text TaModel TaSpec TaProofs.

(* ---------- C21 ---------- *)
(** SetCursorPosition goes to the nearest position inside the text. *)
Theorem C21_set_cursor_position : forall t r c, valid t ->
  let t' := apply (OSetCursor r c) t in
  buf t' = buf t /\ kring t' = kring t /\ conf t' = conf t /\
  Z.of_nat (row t') = Z.max 0 (Z.min r (Z.of_nat (length (buf t)) - 1)) /\
  Z.of_nat (col t') = Z.max 0 (Z.min c (Z.of_nat (length (nth (row t') (buf t) [])))).
Proof.
  intros t r c [H1 _ _] t'. repeat split; auto; subst t'; unfold apply, set_cursor, clampZ, get_line; cbn [row col]; lia.
Qed.
Theorem C21_move_cursor_to_end : forall t, valid t ->
  let t' := apply OMoveCursorToEnd t in buf t' = buf t /\ before t' = value t /\ after t' = [].
Proof.
  intros t H t'. assert (V : valid t') by (apply apply_keeps; auto).
  assert (A : after t' = []).
  { subst t'. unfold after, apply, cursor_to_end, get_line. cbn [row col buf]. pose proof (v_row t H).
    rewrite skipn_all, skipn_all2 by lia. reflexivity. }
  split; [reflexivity|]. split; [|exact A]. pose proof (value_split t' V) as E. rewrite A, app_nil_r in E. rewrite <- E. reflexivity.
Qed.
Example C21_position_ex : let t := apply (OSetCursor 9 (-4)) (apply (OSetValue [97; 10; 98]) new_ta) in row t = 1%nat /\ col t = 0%nat.
Proof. split; reflexivity. Qed.

(* ---------- C25 ---------- *)
(** Each option sets exactly its own setting and nothing else. *)
Theorem C25_options_take_effect : forall t,
  let same t' := buf t' = buf t /\ row t' = row t /\ col t' = col t /\ kring t' = kring t /\ srow t' = srow t /\ scol t' = scol t in
  (forall b, let t' := apply (OReadOnly b) t in same t' /\ conf t' = Cfg (width (conf t)) (height (conf t)) (wrap (conf t)) (max_lines (conf t)) (max_chars (conf t)) b (validator (conf t))) /\
  (forall n, let t' := apply (OMaxLines n) t in same t' /\ max_lines (conf t') = n /\ read_only (conf t') = read_only (conf t) /\ validator (conf t') = validator (conf t) /\ max_chars (conf t') = max_chars (conf t)) /\
  (forall w h, let t' := apply (OSize w h) t in same t' /\ width (conf t') = w /\ height (conf t') = h /\ read_only (conf t') = read_only (conf t) /\ validator (conf t') = validator (conf t) /\ max_lines (conf t') = max_lines (conf t)) /\
  (forall v, let t' := apply (OValidator v) t in same t' /\ validator (conf t') = Some v /\ read_only (conf t') = read_only (conf t) /\ max_lines (conf t') = max_lines (conf t)) /\
  (forall b, let t' := apply (OWrap b) t in same t' /\ wrap (conf t') = b /\ read_only (conf t') = read_only (conf t) /\ validator (conf t') = validator (conf t) /\ max_lines (conf t') = max_lines (conf t)).
Proof. intros t same. repeat split. Qed.
Example C25_options_ex : value (apply_all [OReadOnly true; OKey (plain (KRune 97)); OReadOnly false; OKey (plain (KRune 98))] new_ta) = [98].
Proof. reflexivity. Qed.

(* ---------- C26 ---------- *)
(** The control keys do exactly what the named keys do (capitals too; Alt makes no difference). *)
Theorem C26_emacs_control_keys : forall l k a t, In (l, k) emacs_names ->
  handle (Key true a (KRune l)) t = handle (plain k) t /\ handle (Key true a (KRune (l - 32))) t = handle (plain k) t.
Proof.
  intros l k a t H. unfold emacs_names in H. cbn [In] in H.
  repeat destruct H as [H|H]; try (injection H as <- <-; split; reflexivity). destruct H.
Qed.
(** Alt-letter is the same in capitals; Alt-Backspace is Ctrl-W. *)
Theorem C26_alt_keys : forall t,
  handle (alt 70) t = handle (alt 102) t /\ handle (alt 66) t = handle (alt 98) t /\ handle (alt 68) t = handle (alt 100) t /\
  handle (Key false true KBackspace) t = handle (ctrl 119) t.
Proof. intros t. repeat split. Qed.
(** A combination with Ctrl or Alt that is not bound does nothing (in particular it types
    nothing). *)
Theorem C26_unbound_combinations : forall k t, k_ctrl k || k_alt k = true ->
  is_ctrl_in [97; 101; 112; 110; 102; 98; 107; 117; 119; 121; 100; 104; 109] k = false ->
  (k_alt k = true -> k_t k <> KBackspace /\
     match k_t k with KRune r => ~ In r [102; 70; 98; 66; 100; 68; 60; 62] | _ => True end) ->
  handle k t = (t, []).
Proof.
  intros [c a kt0] t. unfold is_ctrl_in, handle. cbn [k_ctrl k_alt k_t]. intros H H1 H2.
  assert (C : (if c then match kt0 with KRune r => on_ctrl r t | _ => None end else None) = None).
  { destruct c; auto. destruct kt0; auto. unfold on_ctrl. cbn [andb existsb] in H1.
    repeat (apply orb_false_iff in H1; destruct H1 as [? H1]).
    repeat match goal with E : is_letter _ _ = false |- _ => rewrite E; clear E end. reflexivity. }
  rewrite C. assert (D : (if a then on_alt kt0 t else None) = None).
  { destruct a; auto. destruct (H2 eq_refl) as [H3 H4]. destruct kt0; auto; [|congruence]. unfold on_alt, is_letter. cbn in H4.
    repeat match goal with |- context [if ?b then _ else _] => replace b with false by lia end. reflexivity. }
  rewrite D, H. reflexivity.
Qed.
Example C26_unbound_ex : handle (ctrl 113) (apply (OSetValue [97; 98]) new_ta) = ((apply (OSetValue [97; 98]) new_ta), []) /\ is_ctrl_in [97; 101; 112; 110; 102; 98; 107; 117; 119; 121; 100; 104; 109] (ctrl 113) = false.
Proof. split; reflexivity. Qed.
(** Which characters end a word. *)
Theorem C26_word_characters : forall c, boundary c = true <-> In c separators.
Proof.
  intros c. unfold boundary. rewrite existsb_exists. split.
  - intros (x & Hx & E). apply Z.eqb_eq in E. subst x.
    assert (F : forallb (fun y => existsb (Z.eqb y) separators) [32; 9; 46; 44; 59; 58; 33; 63; 40; 41; 91; 93; 123; 125; 47; 92; 124; 45;
                     95; 61; 43; 42; 38; 37; 36; 35; 64; 126; 96; 39; 34; 60; 62] = true) by (vm_compute; reflexivity).
    rewrite forallb_forall in F. apply F in Hx. apply existsb_exists in Hx as (y & Hy & E). apply Z.eqb_eq in E. now subst.
  - intros H. exists c. split; [|apply Z.eqb_refl]. vm_compute in H. cbn [In].
    repeat destruct H as [<-|H]; tauto.
Qed.
Example C26_separators_ex : In 95 separators /\ ~ In 97 separators /\ length separators = 33%nat.
Proof. repeat split; vm_compute; intuition discriminate. Qed.

(* ---------- C61 ---------- *)
Definition motion_funs : list (ta -> ta * list event) :=
  [move_left; move_right; move_up; move_down; move_line_end; move_buffer_start; move_buffer_end; forward_word; backward_word].
Lemma motion_fun k : motion k = true -> home_key k = false -> exists f, In f motion_funs /\ forall t, handle k t = f t.
Proof.
  intros M Hh. destruct k as [c a kt0]. unfold motion, home_key, is_ctrl_in in *. cbn [k_ctrl k_alt k_t existsb] in *.
  assert (D : forall x y r, is_letter x r = true -> 97 <= x <= 122 -> 97 <= y <= 122 -> x <> y -> is_letter y r = false) by (unfold is_letter; intros; lia).
  unfold handle, on_ctrl, on_alt, on_plain. cbn [k_ctrl k_alt k_t].
  destruct c, a, kt0; cbn [andb orb negb] in *; try discriminate.
  all: repeat match goal with
       | |- context [if ?b then _ else _] => let E := fresh "E" in destruct b eqn:E
       end; cbn [negb andb orb] in *; try discriminate;
       try (eexists; split; [|reflexivity]; unfold motion_funs; cbn [In]; auto 12; fail).
Qed.
Lemma go_free t r c : fst (go (unfenced t) r c) = with_cursor (unfenced t) r c.
Proof. reflexivity. Qed.
Definition reported (t : ta) (x y : ta * list event) : Prop :=
  forall v, validator (conf t) = Some v -> at_pos (fst y) <> at_pos t ->
  if v (at_pos t) (at_pos (fst y)) then at_pos (fst x) = at_pos (fst y) /\ snd x = [EMoved (at_pos t) (at_pos (fst y))]
  else fst x = t /\ snd x = [EBlocked (at_pos (fst y))].
Lemma go_reported t r c : reported t (go t r c) (go (unfenced t) r c).
Proof.
  intros v Hv _. rewrite go_free. unfold go, allowed. rewrite Hv. unfold at_pos, zpos. cbn [row col with_cursor unfenced set_cfg].
  destruct (v _ _); cbn [fst snd with_cursor row col]; auto.
Qed.
Lemma same_reported t x e : reported t x (unfenced t, e).
Proof. intros v _ H. exfalso. apply H. reflexivity. Qed.
Lemma move_cursor_reported t r c : reported t (move_cursor t r c) (move_cursor (unfenced t) r c).
Proof.
  unfold move_cursor. cbn [row col unfenced set_cfg]. destruct ((row t =? r)%nat && (col t =? c)%nat); [apply same_reported|apply go_reported].
Qed.
Lemma motion_reported f t : In f motion_funs -> reported t (f t) (f (unfenced t)).
Proof.
  intros [<-|[<-|[<-|[<-|[<-|[<-|[<-|[<-|[<-|[]]]]]]]]]].
  - unfold move_left. cbn [row col buf unfenced set_cfg]. destruct (col t); [destruct (row t)|]; [apply same_reported|apply go_reported..].
  - unfold move_right, cur_line. cbn [row col buf unfenced set_cfg]. destruct (_ <? _)%nat; [apply go_reported|]. destruct (_ <? _)%nat; [apply go_reported|apply same_reported].
  - unfold move_up, edge. cbn [row col buf conf validator unfenced set_cfg]. destruct (row t); [apply same_reported|apply go_reported].
  - unfold move_down, edge. cbn [row col buf conf validator unfenced set_cfg]. destruct (_ <=? _)%nat; [apply same_reported|apply go_reported].
  - apply move_cursor_reported.
  - apply move_cursor_reported.
  - apply move_cursor_reported.
  - apply move_cursor_reported.
  - unfold backward_word. cbn [row col buf unfenced set_cfg]. destruct (col t); [apply same_reported|apply move_cursor_reported].
Qed.
(** A movement key (other than Home) that would go to another position: with a validator it goes
    there exactly if the validator accepts the position, and the observer is told; otherwise
    nothing changes and the boundary handler is told of the attempted position. *)
Theorem C61_accepted_or_reported : forall k t v, motion k = true -> home_key k = false -> validator (conf t) = Some v ->
  let target := at_pos (fst (handle k (unfenced t))) in
  let t' := fst (handle k t) in let evs := snd (handle k t) in
  target <> at_pos t ->
  if v (at_pos t) target then at_pos t' = target /\ evs = [EMoved (at_pos t) target] else t' = t /\ evs = [EBlocked target].
Proof.
  intros k t v M Hh Hv target t' evs Ht. destruct (motion_fun k M Hh) as (f & Hf & E).
  pose proof (motion_reported f t Hf v Hv) as R. unfold target, t', evs in *. rewrite !E in *. exact (R Ht).
Qed.
(** Backspace at a fenced position reports it and changes nothing. *)
Theorem C61_backspace_reports : forall t v, valid t -> read_only (conf t) = false -> validator (conf t) = Some v -> before t <> [] ->
  let target := at_pos (fst (handle (plain KLeft) (unfenced t))) in
  v (at_pos t) target = false ->
  handle (plain KBackspace) t = (t, [EBlocked target]).
Proof.
  intros t v H Ro Hv Hb target Hf. subst target. change (handle (plain KBackspace) t) with (backspace t).
  change (handle (plain KLeft) (unfenced t)) with (move_left (unfenced t)) in *.
  unfold backspace, move_left, allowed in *. rewrite Ro, Hv. cbn [row col buf unfenced set_cfg] in *.
  destruct (col t) as [|c] eqn:C.
  - destruct (row t) as [|r] eqn:R; [exfalso; apply Hb; unfold before; rewrite R, C; reflexivity|].
    rewrite go_free in *. unfold at_pos, zpos in *. cbn [with_cursor row col unfenced set_cfg] in *. rewrite C, R in Hf. rewrite Hf. reflexivity.
  - rewrite go_free in *. unfold at_pos, zpos in *. cbn [with_cursor row col unfenced set_cfg] in *. rewrite C in Hf. rewrite Hf. reflexivity.
Qed.
Definition fenced : ta := apply_all [OSetValue [36; 32; 108; 115]; OSetCursor 0 2; OValidator (fun _ to => 2 <=? snd to)] new_ta.
Example C61_report_ex : handle (plain KLeft) fenced = (fenced, [EBlocked (0, 1)]) /\ before fenced <> [] /\
  snd (handle (plain KRight) fenced) = [EMoved (0, 2) (0, 3)].
Proof. repeat split. discriminate. Qed.

(* ---------- C62 ---------- *)
Lemma scroll_nonneg p s0 s : 0 <= p -> 0 <= s -> 0 <= scroll_to p s0 s.
Proof. unfold scroll_to. intros. destruct (p <? s) eqn:?; match goal with |- context [if ?b then _ else _] => destruct b eqn:? end; lia. Qed.
Lemma srow_with_cursor t r c : 0 <= srow t -> 0 <= srow (with_cursor t r c).
Proof. intros. apply scroll_nonneg; lia. Qed.
Lemma srow_stepped t x : stepped t x -> 0 <= srow t -> 0 <= srow (fst x).
Proof. intros [[-> _]|(r & c & -> & _)] H; auto using srow_with_cursor. Qed.
Lemma srow_kill_line t : srow (kill_line t) = srow t.
Proof. unfold kill_line. destruct (read_only _); [auto|]. destruct (_ <=? _)%nat; [destruct (_ <? _)%nat|]; reflexivity. Qed.
Lemma srow_handle k t : 0 <= srow t -> 0 <= srow (fst (handle k t)).
Proof.
  intros H. assert (W : forall b r c, 0 <= srow (with_cursor (with_buffer t b) r c)) by (intros; apply srow_with_cursor; auto).
  destruct (handle_cases k t) as [E|[E|[E|[E|(ch & Hc & E)]]]].
  - now rewrite E.
  - apply (srow_stepped t); auto. apply motions_stepped; auto.
  - destruct E as [E|[E|[E|[E|[E|[E|[E|[]]]]]]]]; rewrite <- E.
    + now rewrite srow_kill_line.
    + unfold kill_word_backward. destruct (read_only _); [auto|]. destruct (col t) as [|n]; [auto|].
      match goal with |- 0 <= srow (with_ring (with_cursor (with_buffer t ?b) ?r ?c) _) => exact (W b r c) end.
    + unfold yank. destruct (read_only _); [auto|]. destruct (yank_text _); [auto|]. destruct (insert_text _ _ _ _) as [[b r] c]. auto.
    + unfold delete_forward. destruct (read_only _); [auto|]. destruct (_ <=? _)%nat; [destruct (_ <? _)%nat|]; auto.
    + unfold backspace. destruct (read_only _); [auto|]. destruct (col t), (row t); [auto|..]; destruct (allowed _ _ _); cbn [fst]; auto.
    + unfold newline. destruct (read_only _); [auto|]. destruct (_ && _); auto.
    + unfold kill_word. destruct (read_only _); [auto|]. cbv zeta. match goal with |- context [if ?b then _ else _] => destruct b end; auto.
  - rewrite E, srow_kill_line. apply (srow_stepped t); auto. apply motions_stepped. cbn. auto 10.
  - rewrite E. unfold type_char. destruct (read_only _); auto.
Qed.
Lemma srow_all os : forall t, 0 <= srow t -> 0 <= srow (apply_all os t).
Proof.
  induction os as [|o os IH]; intros t H; [exact H|]. apply IH. destruct o; auto. apply srow_handle; auto.
Qed.
(** VisibleLines is the window of Height() lines starting at the scroll offset, for every
    history; it cannot fail unless a negative height was set. *)
Theorem C62_visible_lines_are_the_window : forall os, let t := apply_all os new_ta in 0 <= height (conf t) ->
  0 <= srow t /\
  visible_lines t = Some (firstn (Z.to_nat (height (conf t))) (skipn (Z.to_nat (srow t)) (buf t))).
Proof.
  intros os t Hh. assert (S : 0 <= srow t) by (apply srow_all; cbn; lia). split; auto. clearbody t.
  unfold visible_lines. destruct (Z.of_nat (length (buf t)) <=? srow t) eqn:E1.
  - rewrite skipn_all2 by lia. now rewrite firstn_nil.
  - assert (E2 : ((srow t <? 0) || ((if Z.of_nat (length (buf t)) <? srow t + height (conf t) then Z.of_nat (length (buf t)) else srow t + height (conf t)) <? srow t)) = false)
      by (destruct (Z.of_nat (length (buf t)) <? srow t + height (conf t)) eqn:?; lia).
    rewrite E2. destruct (Z.of_nat (length (buf t)) <? srow t + height (conf t)) eqn:E3.
    + f_equal. rewrite !firstn_all2; auto; rewrite skipn_length; lia.
    + do 2 f_equal. lia.
Qed.
(** So the line with the cursor is among the visible lines whenever the cursor is in the window. *)
Theorem C62_cursor_line_is_visible : forall os, let t := apply_all os new_ta in 0 <= height (conf t) -> cursor_visible t ->
  exists ls, visible_lines t = Some ls /\ nth_error ls (row t - Z.to_nat (srow t)) = Some (nth (row t) (buf t) []).
Proof.
  intros os t Hh [Hr _]. destruct (C62_visible_lines_are_the_window os Hh) as [S E]. fold t in S, E. eexists. split; [exact E|].
  destruct (apply_all_keeps os new_ta new_valid) as [[V _ _] _]. fold t in V.
  rewrite nth_error_firstn. replace (row t - Z.to_nat (srow t) <? Z.to_nat (height (conf t)))%nat with true by (symmetry; apply Nat.ltb_lt; lia).
  rewrite <- (firstn_skipn (Z.to_nat (srow t)) (buf t)) at 2.
  rewrite app_nth2; rewrite firstn_length_le by lia; [|lia]. apply nth_error_nth'. rewrite skipn_length. lia.
Qed.
Example C62_window_ex : visible_lines (apply_all [OSize 10 2; OSetValue [97; 10; 98; 10; 99]; OKey (plain KDown); OKey (plain KDown)] new_ta) = Some [[98]; [99]].
Proof. reflexivity. Qed.

Print Assumptions C21_set_cursor_position. Print Assumptions C21_move_cursor_to_end. Print Assumptions C25_options_take_effect. Print Assumptions C26_emacs_control_keys.
Print Assumptions C26_alt_keys. Print Assumptions C26_unbound_combinations. Print Assumptions C26_word_characters. Print Assumptions C61_accepted_or_reported.
Print Assumptions C61_backspace_reports. Print Assumptions C62_visible_lines_are_the_window. Print Assumptions C62_cursor_line_is_visible.
