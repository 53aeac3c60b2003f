(** C29, C30, C65: the viewport. *)
From Verif Require Import Prelude KeysModel Text VpModel VpSpec VpProofs.

(* ---------- C29 ---------- *)
Theorem C29_offset_always_valid : forall w h os, let v := dom (vsteps os (new_view w h)) in
  0 <= off v <= Z.max 0 (Z.of_nat (length (lines v)) - vh v).
Proof. intros w h os v. destruct (vsteps_ok os _ (new_view_ok w h)) as [[A _ _] _]. exact A. Qed.

(** Without wrapping, after any history, VisibleLines does not fail and line i of it is the longest
    fitting prefix of content line offset+i; there are min(height, lines - offset) of them. *)
Theorem C29_visible_is_the_slice : forall (wd : list Z -> Z) w h os, (forall g, 0 <= wd g) -> let v := dom (vsteps os (new_view w h)) in
  wrapm v = false -> 0 < vw v ->
  exists ls, visible wd v = Some ls /\
    Forall2 (fun l p => longest_fit wd l p (vw v)) (firstn (Z.to_nat (vh v)) (skipn (Z.to_nat (off v)) (lines v))) ls /\
    Z.of_nat (length ls) = Z.min (vh v) (Z.of_nat (length (lines v)) - off v) /\ Forall (fun p => line_width wd p <= vw v) ls.
Proof.
  intros wd w h os wd0 v W0 W. destruct (vsteps_ok os _ (new_view_ok w h)) as [OK _]. fold v in OK.
  exists (map (fun l => truncate_line wd l (vw v)) (slice_of v)). unfold visible. rewrite (window_slice _ OK), W0. replace (vw v <=? 0) with false by lia.
  split; [reflexivity|]. fold (slice_of v). split; [|split].
  - induction (slice_of v); cbn; constructor; auto. apply truncate_longest; auto.
  - destruct OK as [A B C]. rewrite map_length. unfold slice_of, last_screen in *. rewrite firstn_length, skipn_length. lia.
  - apply Forall_map, Forall_forall. intros l _. destruct (truncate_longest wd wd0 l (vw v) W) as (r & _ & X & _). exact X.
Qed.
(** In any mode no call fails, and with a zero width nothing is drawn. *)
Theorem C29_never_fails : forall wd w h os, let v := dom (vsteps os (new_view w h)) in
  visible wd v <> None /\ (vw v = 0 -> visible wd v = Some []).
Proof.
  intros wd w h os v. destruct (vsteps_ok os _ (new_view_ok w h)) as [OK _]. fold v in OK. unfold visible. rewrite (window_slice _ OK).
  split; [destruct (wrapm v); discriminate|]. intros ->. now destruct (wrapm v).
Qed.
Definition one (g : list Z) : Z := 1.
Example C29_ex : visible one (dom (vsteps [VSetLines [[[97]]; [[98]; [99]; [100]]; [[101]]; [[102]]]; VKey (rune_key 106)] (new_view 2 2))) = Some [[[98]; [99]]; [[101]]].
Proof. reflexivity. Qed.
Print Assumptions C29_visible_is_the_slice.

(* ---------- C30 ---------- *)
Theorem C30_wrap_loses_nothing : forall wd l w, 0 < w -> concat (wrap_line wd l w) = l.
Proof.
  intros wd l w W. unfold wrap_line. replace (w <=? 0) with false by lia. destruct (_ <=? w); [cbn; apply app_nil_r|apply wrap_from_concat].
Qed.
(** Each segment fits, or it is one too-wide character (after characters of no width at all). *)
Theorem C30_wrap_segments_fit : forall (wd : list Z -> Z) l w, (forall g, 0 <= wd g) -> 0 < w ->
  Forall (fun s => line_width wd s <= w \/ exists z g, s = z ++ [g] /\ line_width wd z = 0 /\ w < wd g) (wrap_line wd l w).
Proof.
  intros wd l w wd0 W. unfold wrap_line. replace (w <=? 0) with false by lia. destruct (line_width wd l <=? w) eqn:E; [constructor; [left; lia|constructor]|].
  apply (wrap_from_width wd wd0 l [] w). left. cbn. lia.
Qed.
(** A segment is ended only where the next character would not fit, and no segment of a longer line is empty. *)
Theorem C30_wrap_is_greedy : forall (wd : list Z -> Z) l w, 0 < w ->
  (forall a s g r b, wrap_line wd l w = a ++ s :: (g :: r) :: b -> w < line_width wd (s ++ [g])) /\
  (l <> [] -> Forall (fun s => s <> []) (wrap_line wd l w)).
Proof.
  intros wd l w W. unfold wrap_line. replace (w <=? 0) with false by lia. destruct (_ <=? w).
  - split; [intros a s g r b H; destruct a as [|x [|y a]]; discriminate H|intros N; constructor; auto].
  - split; [intros a s g r b H; exact (wrap_from_greedy wd l [] w a s g r b H)|]. intros _. apply wrap_from_nonempty. lia.
Qed.
(** In follow mode the last line is shown after each content change and ToBottom. *)
Theorem C30_follow_shows_last_line : forall w h os c l, let v := vsteps os (new_view w h) in follow (dom v) = true -> 1 <= vh (dom v) ->
  let last_is v := exists shown, firstn (Z.to_nat (vh v)) (skipn (Z.to_nat (off v)) (lines v)) = shown ++ [l] in
  last_is (dom (vstep v (VSetLines (c ++ [l])))) /\ last_is (dom (vstep v (VAppend (c ++ [l])))).
Proof.
  intros w h os c l v F H last_is. pose proof (vsteps_ok os _ (new_view_ok w h)) as OK. fold v in OK.
  assert (G : forall c', last_is (dom (vstep v (VSetLines (c' ++ [l]))))).
  { intros c'. destruct (vstep_ok v (VSetLines (c' ++ [l])) OK) as [OK' _].
    assert (B : off (dom (vstep v (VSetLines (c' ++ [l])))) = last_screen (dom (vstep v (VSetLines (c' ++ [l]))))).
    { cbn [vstep with_dom dom]. unfold with_lines. rewrite F. unfold last_screen. cbn [off lines vh]. rewrite nonneg_eq, max_offset_eq. lia. }
    destruct (slice_snoc _ c' l OK' H B eq_refl c' l eq_refl) as (shown & A & _). exists shown. exact A. }
  split; [apply G|]. specialize (G (lines (dom v) ++ c)). rewrite <- app_assoc in G. exact G.
Qed.
(** As long as the size is not changed, follow mode means the last screenful is shown. *)
Definition not_resize (o : vop) : Prop := match o with VWindowSize _ _ => False | _ => True end.
Lemma follow_step v o : view_ok v -> not_resize o -> (follow (dom v) = true -> off (dom v) = last_screen (dom v)) ->
  follow (dom (vstep v o)) = true -> off (dom (vstep v o)) = last_screen (dom (vstep v o)).
Proof.
  intros [OK W] NR IH. 
  assert (Up : forall n, follow (scroll_up (dom v) n) = true -> off (scroll_up (dom v) n) = last_screen (scroll_up (dom v) n)) by (intros n E; discriminate E).
  assert (Dn : forall n, 0 <= n -> follow (scroll_down (dom v) n) = true -> off (scroll_down (dom v) n) = last_screen (scroll_down (dom v) n)).
  { intros n Hn E. rewrite scroll_down_off by auto. change (last_screen (scroll_down (dom v) n)) with (last_screen (dom v)).
    destruct (Z.le_gt_cases (last_screen (dom v)) (off (dom v) + n)); [lia|]. exfalso. unfold scroll_down in E. cbn [follow at_off] in E.
    rewrite max_offset_eq in E. unfold total, last_screen in *. replace (Z.max 0 _ <? _) with false in E by lia. replace (Z.max 0 _ <=? _) with false in E by lia.
    specialize (IH E). lia. }
  assert (Bt : off (to_bottom (dom v)) = last_screen (to_bottom (dom v))) by (vnorm; lia).
  pose proof (ok_h _ OK) as Hh.
  destruct o; cbn [vstep with_dom dom]; try (destruct NR; fail); try (intros E; discriminate E); auto.
  - unfold on_key. repeat match goal with |- context [if ?b then _ else _] => destruct b end; auto; try (intros E; discriminate E); apply Dn; lia.
  - destruct (mouse_on v); [|exact IH]. destruct b, a; cbn [on_mouse with_dom]; try destruct (dragging v); cbn [with_dom dom]; auto; try (apply Dn; lia); intros E; discriminate E.
  - intros E. unfold with_lines in *. cbn [follow] in E. rewrite E. unfold last_screen. cbn [off lines vh]. rewrite nonneg_eq, max_offset_eq. lia.
  - intros E. unfold with_lines in *. cbn [follow] in E. rewrite E. unfold last_screen. cbn [off lines vh]. rewrite nonneg_eq, max_offset_eq. lia.
  - intros E. unfold with_follow in *. cbn [follow] in E. subst b. unfold last_screen. cbn [off lines vh]. unfold total. rewrite nonneg_eq, max_offset_eq. lia.
Qed.
Theorem C30_follow_stays_at_bottom : forall w h os, Forall not_resize os -> let v := dom (vsteps os (new_view w h)) in
  follow v = true -> off v = Z.max 0 (Z.of_nat (length (lines v)) - vh v).
Proof.
  intros w h os F v. change (follow v = true -> off v = last_screen v). unfold v. clear v.
  assert (G : forall v, view_ok v -> (follow (dom v) = true -> off (dom v) = last_screen (dom v)) -> follow (dom (vsteps os v)) = true -> off (dom (vsteps os v)) = last_screen (dom (vsteps os v))).
  { induction F as [|o os NR _ IH]; intros v OK H; [exact H|]. cbn [vsteps fold_left]. apply (IH (vstep v o)); [now apply vstep_ok|]. apply follow_step; auto. }
  apply (G (new_view w h) (new_view_ok w h)). intros E; discriminate E.
Qed.
Example C30_ex : wrap_line one [[97]; [98]; [99]; [100]; [101]] 2 = [[[97]; [98]]; [[99]; [100]]; [[101]]].
Proof. reflexivity. Qed.
Print Assumptions C30_wrap_segments_fit.
Print Assumptions C30_follow_stays_at_bottom.

(* ---------- C65 ---------- *)
Definition lines_moved (v v' : vp) (n : Z) : Prop :=
  off v' = Z.max 0 (Z.min (Z.max 0 (Z.of_nat (length (lines v)) - vh v)) (off v + n)) /\
  lines v' = lines v /\ vw v' = vw v /\ vh v' = vh v /\ wrapm v' = wrapm v.
Lemma up_moved v n : vp_ok v -> 0 <= n -> lines_moved v (scroll_up v n) (- n).
Proof. intros H Hn. split; [|repeat split]. rewrite scroll_up_off by auto. destruct H as [H _ _]. unfold last_screen in H. lia. Qed.
Lemma down_moved v n : vp_ok v -> 0 <= n -> lines_moved v (scroll_down v n) n.
Proof. intros H Hn. split; [|repeat split]. rewrite scroll_down_off by auto. destruct H as [H _ _]. unfold last_screen in *. lia. Qed.

(** Each bound key scrolls by its amount, clamped to the content; nothing else changes. *)
Theorem C65_keys_scroll : forall w h os, let v := vsteps os (new_view w h) in
  let after k := dom (vstep v (VKey k)) in let H := vh (dom v) in
  Forall (fun k => lines_moved (dom v) (after k) (-1)) [plain KUp; rune_key 107] /\
  Forall (fun k => lines_moved (dom v) (after k) 1) [plain KDown; rune_key 106] /\
  Forall (fun k => lines_moved (dom v) (after k) (- H)) [plain KPgUp; rune_key 98; ctrl_key 98] /\
  Forall (fun k => lines_moved (dom v) (after k) H) [plain KPgDown; rune_key 102; ctrl_key 102; plain KSpace] /\
  Forall (fun k => lines_moved (dom v) (after k) (- (H / 2))) [ctrl_key 117] /\
  Forall (fun k => lines_moved (dom v) (after k) (H / 2)) [ctrl_key 100] /\
  Forall (fun k => off (after k) = 0 /\ lines (after k) = lines (dom v)) [plain KHome; rune_key 103] /\
  Forall (fun k => off (after k) = Z.max 0 (Z.of_nat (length (lines (dom v))) - H) /\ lines (after k) = lines (dom v)) [plain KEnd; rune_key 71].
Proof.
  intros w h os v after H. destruct (vsteps_ok os _ (new_view_ok w h)) as [OK _]. fold v in OK. pose proof (ok_h _ OK) as Hh. fold H in Hh.
  unfold after. cbn [vstep with_dom dom].
  assert (U : forall n, 0 <= n -> lines_moved (dom v) (scroll_up (dom v) n) (- n)) by (intros; apply up_moved; auto).
  assert (D : forall n, 0 <= n -> lines_moved (dom v) (scroll_down (dom v) n) n) by (intros; apply down_moved; auto).
  assert (H2 : 0 <= H / 2) by (Z.div_mod_to_equations; lia).
  split; [|split; [|split; [|split; [|split; [|split; [|split]]]]]]; repeat apply Forall_cons; try apply Forall_nil.
  all: try exact (U 1 ltac:(lia)); try exact (D 1 ltac:(lia)); try exact (U H Hh); try exact (D H Hh); try exact (U _ H2); try exact (D _ H2).
  1,2: split; reflexivity.
  all: split; [|reflexivity].
  all: change (nonneg (max_offset (total (dom v)) H) = Z.max 0 (Z.of_nat (length (lines (dom v))) - H)); rewrite nonneg_eq, max_offset_eq; unfold total; lia.
Qed.
(** A key with any other name leaves the viewport as it is. *)
Theorem C65_other_keys_ignored : forall v k,
  ~ In (key_string k) (map key_string [plain KUp; rune_key 107; plain KDown; rune_key 106; plain KPgUp; rune_key 98; ctrl_key 98;
      plain KPgDown; rune_key 102; ctrl_key 102; plain KSpace; ctrl_key 117; ctrl_key 100; plain KHome; rune_key 103; plain KEnd; rune_key 71]) ->
  vstep v (VKey k) = v.
Proof.
  intros v k N. assert (G : forall names, (forall s, In s names -> s <> key_string k) -> key_in k names = false).
  { intros names Hn. unfold key_in. destruct (existsb _ names) eqn:E; auto. apply existsb_exists in E as (s & I & Q). apply list_eqb_eq in Q. now destruct (Hn s I). }
  cbn [vstep]. unfold on_key. rewrite !G.
  { destruct v; reflexivity. }
  all: intros s I Q; apply N; rewrite <- Q; clear N G Q.
  all: repeat (destruct I as [<-|I]; [cbv; tauto|]); destruct I.
Qed.
(** The wheel moves by the configured amount (3 unless set; at least 1). *)
Theorem C65_wheel_scrolls : forall w h os a y, let v := vsteps os (new_view w h) in mouse_on v = true ->
  lines_moved (dom v) (dom (vstep v (VMouse MWheelUp a y))) (- per_wheel v) /\
  lines_moved (dom v) (dom (vstep v (VMouse MWheelDown a y))) (per_wheel v).
Proof.
  intros w h os a y v M. destruct (vsteps_ok os _ (new_view_ok w h)) as [OK W]. fold v in OK, W. cbn [vstep]. rewrite M.
  assert (W' : 0 <= per_wheel v) by lia. split; [exact (up_moved _ _ OK W')|exact (down_moved _ _ OK W')].
Qed.
(** The wheel amount is the last one set, at least 1, initially 3. *)
Fixpoint wheel_set (os : list vop) (n : Z) : Z :=
  match os with [] => n | VWheel k :: r => wheel_set r (Z.max 1 k) | _ :: r => wheel_set r n end.
Theorem C65_wheel_amount : forall w h os, per_wheel (vsteps os (new_view w h)) = wheel_set os 3.
Proof.
  intros w h os. assert (G : forall v, per_wheel (vsteps os v) = wheel_set os (per_wheel v)).
  { induction os as [|o os IH]; intros v; [reflexivity|]. change (per_wheel (vsteps os (vstep v o)) = wheel_set (o :: os) (per_wheel v)). rewrite IH.
    assert (E : match o with VWheel k => per_wheel (vstep v o) = Z.max 1 k | _ => per_wheel (vstep v o) = per_wheel v end).
    { destruct o; try reflexivity.
      - cbn [vstep]. destruct (mouse_on v); [|reflexivity]. destruct b, a; cbn [on_mouse]; try destruct (dragging v); reflexivity.
      - cbn [vstep per_wheel]. destruct (n <? 1) eqn:E; lia. }
    destruct o; cbn [wheel_set]; rewrite E; reflexivity. }
  apply G.
Qed.
(** Wrapping and the mouse are off until switched on, and then as last set. *)
Fixpoint wrap_set (os : list vop) (b : bool) : bool := match os with [] => b | VWrap x :: r => wrap_set r x | _ :: r => wrap_set r b end.
Fixpoint mouse_set (os : list vop) (b : bool) : bool := match os with [] => b | VMouseOn x :: r => mouse_set r x | _ :: r => mouse_set r b end.
Theorem C65_settings : forall w h os, wrapm (dom (vsteps os (new_view w h))) = wrap_set os false /\ mouse_on (vsteps os (new_view w h)) = mouse_set os false.
Proof.
  intros w h os. assert (G : forall v, wrapm (dom (vsteps os v)) = wrap_set os (wrapm (dom v)) /\ mouse_on (vsteps os v) = mouse_set os (mouse_on v)).
  { induction os as [|o os IH]; intros v; [split; reflexivity|]. change (vsteps (o :: os) v) with (vsteps os (vstep v o)). destruct (IH (vstep v o)) as [-> ->].
    assert (E : match o with VWrap b => wrapm (dom (vstep v o)) = b /\ mouse_on (vstep v o) = mouse_on v | VMouseOn b => wrapm (dom (vstep v o)) = wrapm (dom v) /\ mouse_on (vstep v o) = b
                | _ => wrapm (dom (vstep v o)) = wrapm (dom v) /\ mouse_on (vstep v o) = mouse_on v end).
    { destruct o; try (split; reflexivity).
      - cbn [vstep]. unfold on_key. repeat match goal with |- context [if ?b then _ else _] => destruct b; [split; reflexivity|] end. split; reflexivity.
      - cbn [vstep]. destruct (mouse_on v) eqn:M; [|split; auto]. destruct b, a; cbn [on_mouse]; try destruct (dragging v); split; auto. }
    destruct o; cbn [wrap_set mouse_set]; destruct E as [-> ->]; split; reflexivity. }
  apply G.
Qed.
(** Dragging: press at row y0, motions, the offset is the one at the press minus the rows moved, clamped;
    intermediate motions do not accumulate. Other mouse events are ignored. *)
Theorem C65_drag_scrolls : forall w h os y0 ys y, let v := vsteps os (new_view w h) in mouse_on v = true ->
  let v' := vsteps (VMouse MLeft MPress y0 :: map (VMouse MLeft MMotion) ys ++ [VMouse MLeft MMotion y]) v in
  lines_moved (dom v) (dom v') (y0 - y) /\ (lines_moved (dom v) (dom (vstep v' (VMouse MLeft MRelease y))) (y0 - y)).
Proof.
  intros w h os y0 ys y v M v'. destruct (vsteps_ok os _ (new_view_ok w h)) as [OK W]. fold v in OK, W.
  assert (G : forall ys u, mouse_on u = true -> dragging u = true -> drag_y u = y0 -> scroll_y u = off (dom v) -> vp_ok (dom u) ->
     lines (dom u) = lines (dom v) -> vw (dom u) = vw (dom v) -> vh (dom u) = vh (dom v) -> wrapm (dom u) = wrapm (dom v) ->
     let u' := vsteps (map (VMouse MLeft MMotion) ys ++ [VMouse MLeft MMotion y]) u in lines_moved (dom v) (dom u') (y0 - y) /\ mouse_on u' = true).
  { clear ys v'. induction ys as [|z ys IH]; intros u Mu Du Yu Su Ou L1 L2 L3 L4 u'.
    - assert (E : u' = with_dom u (with_offset (dom u) (scroll_y u - (y - drag_y u)))).
      { unfold u'. cbn [map app vsteps fold_left vstep]. rewrite Mu. cbn [on_mouse]. rewrite Du. reflexivity. }
      rewrite E. cbn [with_dom dom mouse_on]. split; [|exact Mu]. split; [|repeat split; auto]. rewrite with_offset_off by auto. unfold last_screen. rewrite L1, L3, Su, Yu. lia.
    - assert (E : u' = vsteps (map (VMouse MLeft MMotion) ys ++ [VMouse MLeft MMotion y]) (with_dom u (with_offset (dom u) (scroll_y u - (z - drag_y u))))).
      { unfold u'. cbn [map app vsteps fold_left vstep]. rewrite Mu. cbn [on_mouse]. rewrite Du. reflexivity. }
      rewrite E. apply IH; cbn [with_dom mouse_on dragging drag_y scroll_y dom]; auto. now apply offset_ok. }
  assert (E : v' = vsteps (map (VMouse MLeft MMotion) ys ++ [VMouse MLeft MMotion y]) (V (dom v) (mouse_on v) (per_wheel v) true y0 (off (dom v)))).
  { unfold v'. cbn [vsteps fold_left vstep on_mouse]. unfold vsteps at 1. f_equal. destruct (mouse_on v); [reflexivity|discriminate M]. }
  destruct (G ys (V (dom v) (mouse_on v) (per_wheel v) true y0 (off (dom v)))) as [A B]; auto. rewrite <- E in A, B. split; [exact A|].
  assert (E2 : dom (vstep v' (VMouse MLeft MRelease y)) = dom v') by (cbn [vstep]; rewrite B; cbn [on_mouse]; destruct (dragging v'); reflexivity).
  now rewrite E2.
Qed.
(** With the mouse off, mouse events do nothing. *)
Theorem C65_mouse_off : forall v b a y, mouse_on v = false -> vstep v (VMouse b a y) = v.
Proof. intros v b a y M. cbn [vstep]. now rewrite M. Qed.
Example C65_ex : let v := vsteps [VSetLines (repeat [[97]] 20); VMouseOn true; VOffset 5] (new_view 10 4) in
  off (dom v) = 5 /\ off (dom (vsteps [VMouse MLeft MPress 3; VMouse MLeft MMotion 1] v)) = 7 /\ off (dom (vstep v (VMouse MWheelDown MPress 0))) = 8.
Proof. repeat split; reflexivity. Qed.

(** The calls: exactly what each does to size, content, offset, follow and wrap mode. *)
Theorem C65_calls : forall w h os, let v := vsteps os (new_view w h) in let d := dom v in let bottom := Z.max 0 (Z.of_nat (length (lines d)) - vh d) in
  (forall o, dom (vstep v (VOffset o)) = VP (lines d) (vw d) (vh d) (Z.max 0 (Z.min bottom o)) false (wrapm d)) /\
  dom (vstep v VTop) = VP (lines d) (vw d) (vh d) 0 false (wrapm d) /\
  dom (vstep v VBottom) = VP (lines d) (vw d) (vh d) bottom true (wrapm d) /\
  dom (vstep v (VFollow true)) = VP (lines d) (vw d) (vh d) bottom true (wrapm d) /\
  dom (vstep v (VFollow false)) = VP (lines d) (vw d) (vh d) (off d) false (wrapm d) /\
  (forall b, dom (vstep v (VWrap b)) = VP (lines d) (vw d) (vh d) (off d) (follow d) b) /\
  (forall b, vstep v (VMouseOn b) = V d b (per_wheel v) (dragging v) (drag_y v) (scroll_y v)) /\
  (forall w' h', 0 <= w' -> 0 <= h' ->
     dom (vstep v (VWindowSize w' h')) = VP (lines d) w' h' (Z.min (off d) (Z.max 0 (Z.of_nat (length (lines d)) - h'))) (follow d) (wrapm d)) /\
  (forall c, dom (vstep v (VSetLines c)) =
     VP c (vw d) (vh d) (let b := Z.max 0 (Z.of_nat (length c) - vh d) in if follow d then b else Z.min (off d) b) (follow d) (wrapm d)) /\
  (forall c, vstep v (VAppend c) = vstep v (VSetLines (lines d ++ c))) /\
  (forall o, match o with VKey _ | VMouse _ _ _ | VWheel _ | VMouseOn _ => True
             | _ => mouse_on (vstep v o) = mouse_on v /\ per_wheel (vstep v o) = per_wheel v /\ dragging (vstep v o) = dragging v /\
                    drag_y (vstep v o) = drag_y v /\ scroll_y (vstep v o) = scroll_y v end).
Proof.
  intros w h os v d bottom. destruct (vsteps_ok os _ (new_view_ok w h)) as [OK _]. fold v in OK. fold d in OK. destruct OK as [Oo Oh Ow]. unfold last_screen in Oo. fold bottom in Oo.
  repeat match goal with |- _ /\ _ => split end.
  - intros o. cbn [vstep with_dom dom]. fold d. unfold with_offset, at_off. rewrite max_offset_eq, nonneg_eq. f_equal.
    unfold total. fold bottom. destruct (o <? 0) eqn:E; match goal with |- context [if ?b then _ else _] => destruct b eqn:F end; lia.
  - reflexivity.
  - cbn [vstep with_dom dom]. fold d. unfold to_bottom, at_off. rewrite max_offset_eq, nonneg_eq. f_equal. unfold total. lia.
  - cbn [vstep with_dom dom]. fold d. unfold with_follow. rewrite max_offset_eq, nonneg_eq. f_equal. unfold total. lia.
  - reflexivity.
  - intros b. reflexivity.
  - intros b. reflexivity.
  - intros w' h' W' H'. cbn [vstep with_dom dom]. fold d. unfold with_size. rewrite clamp_off_eq, max_offset_eq, !nonneg_eq. f_equal; unfold total; lia.
  - intros c. cbn [vstep with_dom dom]. fold d. unfold with_lines. rewrite clamp_off_eq, max_offset_eq, !nonneg_eq. f_equal. cbv zeta. destruct (follow d); lia.
  - intros c. reflexivity.
  - intros o. destruct o; auto; repeat split.
Qed.
(** Moving up leaves follow mode; moving down enters it exactly when the bottom is reached. *)
Theorem C65_follow_mode : forall w h os, let v := vsteps os (new_view w h) in let d := dom v in let bottom := Z.max 0 (Z.of_nat (length (lines d)) - vh d) in
  Forall (fun k => follow (dom (vstep v (VKey k))) = false) [plain KUp; rune_key 107; plain KPgUp; rune_key 98; ctrl_key 98; ctrl_key 117; plain KHome; rune_key 103] /\
  Forall (fun k => let d' := dom (vstep v (VKey k)) in follow d' = follow d || (off d' =? bottom))
    [plain KDown; rune_key 106; plain KPgDown; rune_key 102; ctrl_key 102; plain KSpace; ctrl_key 100] /\
  Forall (fun k => follow (dom (vstep v (VKey k))) = true) [plain KEnd; rune_key 71] /\
  (mouse_on v = true -> forall a y,
     follow (dom (vstep v (VMouse MWheelUp a y))) = false /\
     (let d' := dom (vstep v (VMouse MWheelDown a y)) in follow d' = follow d || (off d' =? bottom))).
Proof.
  intros w h os v d bottom. destruct (vsteps_ok os _ (new_view_ok w h)) as [OK W]. fold v in OK, W. fold d in OK.
  assert (D : forall n, 0 <= n -> let d' := scroll_down d n in follow d' = follow d || (off d' =? bottom)).
  { intros n Hn d'. unfold d'. rewrite scroll_down_off by auto. unfold scroll_down. cbn [follow at_off]. rewrite max_offset_eq. unfold total, last_screen. fold bottom.
    destruct OK as [A _ _]. unfold last_screen in A. fold bottom in A. destruct (follow d); cbn [orb]; repeat match goal with |- context [if ?b then _ else _] => destruct b eqn:? end; destruct (bottom <? off d + n) eqn:?; lia. }
  pose proof (ok_h _ OK) as Hh. assert (H2 : 0 <= vh d / 2) by (Z.div_mod_to_equations; lia).
  split; [|split; [|split]].
  - repeat apply Forall_cons; try apply Forall_nil; reflexivity.
  - repeat apply Forall_cons; try apply Forall_nil; try exact (D 1 ltac:(lia)); try exact (D (vh d) Hh); exact (D _ H2).
  - repeat apply Forall_cons; try apply Forall_nil; reflexivity.
  - intros M a y. cbn [vstep]. rewrite M. split; [reflexivity|]. exact (D (per_wheel v) ltac:(lia)).
Qed.
(** Pressing another button, or moving or releasing without a drag, does nothing; releasing ends the drag, after which motion does nothing. *)
Theorem C65_no_drag_no_scroll : forall v b y, mouse_on v = true -> b <> MWheelUp -> b <> MWheelDown ->
  (b <> MLeft -> vstep v (VMouse b MPress y) = v) /\
  (dragging v = false -> vstep v (VMouse b MMotion y) = v /\ vstep v (VMouse b MRelease y) = v) /\
  (dragging (vstep v (VMouse b MRelease y)) = false /\ dom (vstep v (VMouse b MRelease y)) = dom v) /\
  (dragging (vstep v (VMouse MLeft MPress y)) = true /\ dom (vstep v (VMouse MLeft MPress y)) = dom v).
Proof.
  intros v b y M N1 N2. cbn [vstep]. rewrite M. split; [|split; [|split]].
  - intros N3. destruct b; try congruence; reflexivity.
  - intros D. destruct b; try congruence; cbn [on_mouse]; rewrite D; auto.
  - destruct b; try congruence; cbn [on_mouse]; destruct (dragging v) eqn:D; auto.
  - split; reflexivity.
Qed.
(** The questions: where the view is, and whether a line up or down would move it. *)
Theorem C65_queries : forall w h os, let v := vsteps os (new_view w h) in let d := dom v in
  (is_at_top d = true <-> off d = 0) /\ (is_at_bottom d = true <-> Z.of_nat (length (lines d)) <= off d + vh d) /\
  (can_scroll_up d = true <-> off (dom (vstep v (VKey (plain KUp)))) <> off d) /\
  (can_scroll_down d = true <-> off (dom (vstep v (VKey (plain KDown)))) <> off d).
Proof.
  intros w h os v d. destruct (vsteps_ok os _ (new_view_ok w h)) as [OK W]. fold v in OK, W. fold d in OK. pose proof OK as [A B C].
  unfold is_at_top, is_at_bottom, can_scroll_up, can_scroll_down. rewrite max_offset_eq. unfold total, last_screen in *.
  split; [lia|split; [lia|split]].
  - change (dom (vstep v (VKey (plain KUp)))) with (scroll_up d 1). rewrite scroll_up_off by (auto; lia). lia.
  - change (dom (vstep v (VKey (plain KDown)))) with (scroll_down d 1). rewrite scroll_down_off by (auto; lia). unfold last_screen. lia.
Qed.
(** Text in, text out: with the whole text on screen, View gives back the text that was set. *)
Theorem C29_view_shows_the_text : forall (wd : list Z -> Z) (seg : list Z -> vline) w h os text, (forall g, 0 <= wd g) -> (forall l, concat (seg l) = l) ->
  let v := set_content seg (vsteps os (new_view w h)) text in
  wrapm (dom v) = false -> Z.of_nat (length (split_nl text)) <= vh (dom v) -> 0 < vw (dom v) ->
  (forall l, In l (split_nl text) -> line_width wd (seg l) <= vw (dom v)) -> view_text wd v = Some text.
Proof.
  intros wd seg w h os text wd0 sg v Wm Hh Hw Fit. pose proof (vsteps_ok os _ (new_view_ok w h)) as OK.
  pose proof (vstep_ok _ (VSetLines (map seg (split_nl text))) OK) as [OK' _]. change (vp_ok (dom v)) in OK'.
  assert (L : lines (dom v) = map seg (split_nl text)) by reflexivity.
  assert (O0 : off (dom v) = 0). { destruct OK' as [A _ _]. unfold last_screen in A. rewrite L, map_length in A. lia. }
  unfold view_text, visible. rewrite (window_slice _ OK'), Wm. replace (vw (dom v) <=? 0) with false by lia. cbn [option_map]. f_equal.
  unfold slice_of. rewrite O0, L, firstn_all2 by (cbn [Z.to_nat skipn]; rewrite map_length; lia). cbn [Z.to_nat skipn]. rewrite !map_map.
  rewrite (map_ext_in _ (fun x => x)); [rewrite map_id; apply join_split|]. intros l I. specialize (Fit l I).
  destruct (truncate_longest wd wd0 (seg l) (vw (dom v)) Hw) as (r & A & B & C). destruct r as [|g r].
  - rewrite app_nil_r in A. rewrite <- A. apply sg.
  - exfalso. rewrite A in Fit. rewrite lw_app in Fit. rewrite lw_app in C. cbn [line_width fold_right] in Fit, C.
    assert (0 <= line_width wd r) by (apply lw_nonneg; auto). unfold line_width in *. lia.
Qed.
Example C29_ex_text : view_text one (set_content (map (fun c => [c])) (new_view 5 3) [97; 98; 10; 10; 99]) = Some [97; 98; 10; 10; 99].
Proof. reflexivity. Qed.

(* ---------- C135: wrapping and the height ---------- *)
(** With wrapping on, more than height lines come back. *)
Theorem C135_wrap_overflows_height_refuted : exists w h os ls, visible one (dom (vsteps os (new_view w h))) = Some ls /\
  h < Z.of_nat (length ls) /\ 0 < h.
Proof. exists 2, 1, [VWrap true; VSetLines [[[97]; [98]; [99]]]], [[[97]; [98]]; [[99]]]. split; [reflexivity|]. split; reflexivity. Qed.
(** What is shown: each of the height content lines from the offset, cut into segments that fit; if every line of the slice fits
    there are no more than height of them. *)
Theorem C135_wrap_shows_the_slice_partial : forall (wd : list Z -> Z) w h os, (forall g, 0 <= wd g) -> let v := dom (vsteps os (new_view w h)) in
  wrapm v = true -> 0 < vw v -> let slice := firstn (Z.to_nat (vh v)) (skipn (Z.to_nat (off v)) (lines v)) in
  exists groups, visible wd v = Some (concat groups) /\
    Forall2 (fun l g => concat g = l /\ Forall (fun s => line_width wd s <= vw v \/ exists z c, s = z ++ [c] /\ line_width wd z = 0 /\ vw v < wd c) g /\
                        (line_width wd l <= vw v -> g = [l])) slice groups /\
    (Forall (fun l => line_width wd l <= vw v) slice -> visible wd v = Some slice /\ Z.of_nat (length slice) <= vh v).
Proof.
  intros wd w h os wd0 v W0 W slice. destruct (vsteps_ok os _ (new_view_ok w h)) as [OK _]. fold v in OK.
  assert (E : visible wd v = Some (concat (map (fun l => wrap_line wd l (vw v)) slice))).
  { unfold visible. rewrite (window_slice _ OK), W0. replace (vw v <=? 0) with false by lia. rewrite flat_map_concat_map. reflexivity. }
  assert (S1 : forall l, line_width wd l <= vw v -> wrap_line wd l (vw v) = [l]).
  { intros l H. unfold wrap_line. replace (vw v <=? 0) with false by lia. now replace (line_width wd l <=? vw v) with true by lia. }
  exists (map (fun l => wrap_line wd l (vw v)) slice). split; [exact E|]. split.
  - clear E. induction slice as [|l sl IH]; cbn [map]; constructor; auto. split; [apply C30_wrap_loses_nothing; auto|]. split; [apply C30_wrap_segments_fit; auto|auto].
  - intros F. split.
    + rewrite E. f_equal. clear E. induction F; cbn; auto. rewrite S1 by auto. cbn. now f_equal.
    + unfold slice. rewrite firstn_length. pose proof (ok_h _ OK). lia.
Qed.

(* ---------- C136: resizing in follow mode ---------- *)
(** A smaller window in follow mode hides the last line. *)
Theorem C136_resize_hides_last_line_refuted : exists w h os, let v := dom (vsteps os (new_view w h)) in
  follow v = true /\ 1 <= vh v /\ off v < Z.max 0 (Z.of_nat (length (lines v)) - vh v).
Proof. exists 5, 4, [VFollow true; VSetLines [[]; []; []; []]; VWindowSize 5 2]. repeat split; cbn; lia. Qed.
(** It is back with the next content change, or on ScrollToBottom; and growing the window never loses it. *)
Theorem C136_resize_then_bottom_partial : forall w h os w' h', 1 <= h' -> let v := vsteps os (new_view w h) in
  let at_bottom d := off d = Z.max 0 (Z.of_nat (length (lines d)) - vh d) in let v' := vstep v (VWindowSize w' h') in
  at_bottom (dom (vstep v' VBottom)) /\
  (follow (dom v) = true -> forall c, at_bottom (dom (vstep v' (VSetLines c))) /\ at_bottom (dom (vstep v' (VAppend c)))) /\
  (at_bottom (dom v) -> vh (dom v) <= h' -> at_bottom (dom v')).
Proof.
  intros w h os w' h' H v at_bottom v'.
  assert (E : v' = vsteps (os ++ [VWindowSize w' h']) (new_view w h)) by (unfold v', v, vsteps; now rewrite fold_left_app).
  pose proof (C65_calls w h (os ++ [VWindowSize w' h'])) as Q. cbv zeta in Q. rewrite <- E in Q. destruct Q as (_ & _ & Qb & _ & _ & _ & _ & _ & Ql & Qa & _).
  pose proof (C65_calls w h os) as Q. cbv zeta in Q. fold v in Q. destruct Q as (_ & _ & _ & _ & _ & _ & _ & Qs & _).
  split; [|split].
  - unfold at_bottom. rewrite Qb. cbn [off lines vh]. reflexivity.
  - intros F c. assert (F' : follow (dom v') = true) by exact F. unfold at_bottom. rewrite Qa, !Ql, F'. cbn [off lines vh]. auto.
  - unfold at_bottom, v'. intros A G. cbn [vstep with_dom dom]. unfold with_size. cbn [off lines vh]. rewrite clamp_off_eq, max_offset_eq, nonneg_eq. unfold total. lia.
Qed.

(* ---------- C137: ScrollToBottom once ---------- *)
(** ScrollToBottom is documented as a one-time action, but later content is followed. *)
Theorem C137_scroll_to_bottom_follows_refuted : exists w h os c, let v := vstep (vsteps os (new_view w h)) VBottom in
  follow (dom (vsteps os (new_view w h))) = false /\ off (dom (vstep v (VAppend c))) <> off (dom v).
Proof. exists 5, 1, [VSetLines [[]; []]], [[]]. split; [reflexivity|cbn; lia]. Qed.
(** The other one-time actions are: the offset stays where it was put while content is appended. *)
Theorem C137_other_positions_stay_partial : forall w h os o cs, let v := vsteps os (new_view w h) in
  let stays u := off (dom (vsteps (map VAppend cs) u)) = off (dom u) in
  stays (vstep v VTop) /\ stays (vstep v (VOffset o)) /\ stays (vsteps [VBottom; VFollow false] v).
Proof.
  intros w h os o cs v stays. pose proof (vsteps_ok os _ (new_view_ok w h)) as OK. fold v in OK.
  assert (G : forall u, view_ok u -> follow (dom u) = false -> stays u).
  { unfold stays. clear. induction cs as [|c cs IH]; intros u OK F; [reflexivity|].
    assert (E : off (dom (vstep u (VAppend c))) = off (dom u)).
    { cbn [vstep with_dom dom]. unfold with_lines. rewrite F. cbn [off]. rewrite clamp_off_eq, max_offset_eq, app_length.
      destruct OK as [[A B C] _]. unfold last_screen in A. lia. }
    rewrite <- E. cbn [map vsteps fold_left]. apply (IH (vstep u (VAppend c))); [apply vstep_ok; auto|exact F]. }
  split; [|split]; apply G; try reflexivity; [apply vstep_ok, OK|apply vstep_ok, OK|apply vstep_ok, vstep_ok, OK].
Qed.

Print Assumptions C29_offset_always_valid. Print Assumptions C29_visible_is_the_slice. Print Assumptions C29_never_fails. Print Assumptions C30_wrap_loses_nothing.
Print Assumptions C30_wrap_segments_fit. Print Assumptions C30_wrap_is_greedy. Print Assumptions C30_follow_shows_last_line. Print Assumptions C30_follow_stays_at_bottom.
Print Assumptions C65_keys_scroll. Print Assumptions C65_other_keys_ignored. Print Assumptions C65_wheel_scrolls. Print Assumptions C65_wheel_amount.
Print Assumptions C65_settings. Print Assumptions C65_drag_scrolls. Print Assumptions C65_mouse_off. Print Assumptions C65_calls.
Print Assumptions C65_follow_mode. Print Assumptions C65_no_drag_no_scroll. Print Assumptions C65_queries. Print Assumptions C29_view_shows_the_text.
Print Assumptions C135_wrap_overflows_height_refuted. Print Assumptions C135_wrap_shows_the_slice_partial. Print Assumptions C136_resize_hides_last_line_refuted. Print Assumptions C136_resize_then_bottom_partial.
Print Assumptions C137_scroll_to_bottom_follows_refuted. Print Assumptions C137_other_positions_stay_partial.
