(** What a text area draws, for every history of API calls and keys. *)
From Verif Require Import Prelude Text Utf8 TermEmu SySpec SyProofs TaModel TaSpec TaProofs TaKeysProps TaViewModel.
From Verif Require SyModel SyRenderProps.

(** The text the program put in: the state of the text area after a history. *)
Definition area_of (os : list aop) : area := asteps os new_area.
(** Edits of a history, without the display settings. *)
Fixpoint edits (os : list aop) : list op := match os with [] => [] | AEdit o :: r => o :: edits r | _ :: r => edits r end.
(** Reverse video, nothing else. *)
Definition reversed : pen := Pen None None false false false false false true false false.
(** The lines of the buffer the view is about. *)
Definition window (t : ta) : list (list Z) := firstn (Z.to_nat (height (conf t))) (skipn (Z.to_nat (srow t)) (buf t)).
(** Text without escape characters or stray line breaks. *)
Definition clean (t : ta) : Prop := Forall (fun l => ~ In 27 l /\ ~ In nl l) (buf t).
Definition with_nums (a : area) (b : bool) : area := Area (core a) (ph a) b (curs a).

Lemma core_of os : forall a, core (asteps os a) = apply_all (edits os) (core a).
Proof.
  unfold asteps, apply_all. induction os as [|o os IH]; intros a; [reflexivity|]. cbn [fold_left]. rewrite IH. destruct o; reflexivity.
Qed.
Lemma core_area os : core (area_of os) = apply_all (edits os) new_ta.
Proof. apply core_of. Qed.
Lemma empty_value t : (0 < length (buf t))%nat -> (is_empty t = true <-> value t = []).
Proof.
  unfold is_empty, value. destruct (buf t) as [|[|c l] [|l2 r]]; cbn; intros H; try lia; split; intros E; try discriminate; auto.
Qed.
Lemma draw_ext a b ls : forall i, (forall j l, draw_line a j l = draw_line b j l) -> draw_lines a i ls = draw_lines b i ls.
Proof.
  induction ls as [|l ls IH]; intros i H; [reflexivity|]. cbn [draw_lines]. destruct ls as [|l' ls]; [apply H|].
  rewrite H. f_equal. f_equal. now apply IH.
Qed.
(** The lines of drawn text are the drawn lines. *)
Lemma draw_join a ls : forall i, draw_lines a i ls = join_lines (map (fun p => draw_line a (fst p) (snd p)) (combine (seq i (length ls)) ls)).
Proof.
  induction ls as [|l ls IH]; intros i; [reflexivity|]. cbn [draw_lines length seq combine map fst snd].
  destruct ls as [|l' ls]; [reflexivity|]. rewrite IH. reflexivity.
Qed.
Lemma plain_lines a ls : forall i, nums a = false -> (forall j, (j < length ls)%nat -> curs a = false \/ Z.of_nat (i + j) + srow (core a) <> Z.of_nat (row (core a))) ->
  draw_lines a i ls = join_lines ls.
Proof.
  induction ls as [|l ls IH]; intros i N H; [reflexivity|].
  assert (D : draw_line a i l = l).
  { unfold draw_line. rewrite N. cbn [app]. destruct (H 0%nat ltac:(cbn; lia)) as [C|C].
    - rewrite C, andb_false_r. reflexivity.
    - replace (Z.of_nat i + srow (core a) =? Z.of_nat (row (core a))) with false by lia. reflexivity. }
  cbn [draw_lines join_lines]. rewrite D. destruct ls as [|l' ls]; [reflexivity|]. f_equal. f_equal. apply IH; auto.
  intros j Hj. destruct (H (S j)) as [C|C]; [cbn [length] in *; lia|now left|right]. rewrite <- plus_n_Sm in C. exact C.
Qed.
Lemma join_around (A : list (list Z)) (l : list Z) (B : list (list Z)) :
  join_lines (A ++ l :: B) = flat_map (fun x => x ++ [nl]) A ++ l ++ flat_map (fun x => nl :: x) B.
Proof.
  induction A as [|x A IH]; cbn [app flat_map].
  - revert l. induction B as [|y B IHB]; intros l; cbn [join_lines flat_map]; [now rewrite app_nil_r|]. change (l ++ nl :: join_lines (y :: B) = l ++ (nl :: y) ++ flat_map (fun x => nl :: x) B). rewrite (IHB y). reflexivity.
  - rewrite <- app_assoc. cbn [app]. rewrite <- app_assoc. cbn [app]. rewrite <- IH. destruct A; reflexivity.
Qed.
Lemma draw_around a A l B : forall i, nums a = false -> Z.of_nat (i + length A) + srow (core a) = Z.of_nat (row (core a)) ->
  draw_lines a i (A ++ l :: B) = flat_map (fun x => x ++ [nl]) A ++ draw_line a (i + length A) l ++ flat_map (fun x => nl :: x) B.
Proof.
  intros i N H. rewrite draw_join.
  assert (E : map (fun p => draw_line a (fst p) (snd p)) (combine (seq i (length (A ++ l :: B))) (A ++ l :: B)) = A ++ draw_line a (i + length A) l :: B).
  { revert i H. induction A as [|x A IH]; intros i H.
    - cbn [app length seq combine map fst snd]. rewrite Nat.add_0_r. f_equal. cbn [length] in H. rewrite Nat.add_0_r in H.
      assert (G : forall B k, Z.of_nat (row (core a)) < Z.of_nat k + srow (core a) -> map (fun p => draw_line a (fst p) (snd p)) (combine (seq k (length B)) B) = B).
      { clear -N. induction B as [|y B IH]; intros k Hk; [reflexivity|]. cbn [length seq combine map fst snd]. rewrite IH by lia. f_equal.
        unfold draw_line. rewrite N. replace (Z.of_nat k + srow (core a) =? Z.of_nat (row (core a))) with false by lia. reflexivity. }
      apply G. lia.
    - cbn [app length seq combine map fst snd]. cbn [length] in H. rewrite (IH (S i)) by lia. replace (S i + length A)%nat with (i + S (length A))%nat by lia.
      f_equal. unfold draw_line. rewrite N. replace (Z.of_nat i + srow (core a) =? Z.of_nat (row (core a))) with false by lia. reflexivity. }
  rewrite E. apply join_around.
Qed.

Lemma obs_pre p a r : ~ In 27 a -> obs Ground p (a ++ r) = let '(o, e) := obs Ground p r in (paint p a ++ o, e).
Proof. intros H. rewrite obs_app, (obs_text p _ H). destruct (obs Ground p r). reflexivity. Qed.
Lemma obs_on r : obs Ground pen0 (27 :: 91 :: 55 :: 109 :: r) = obs Ground reversed r.
Proof. reflexivity. Qed.
Lemma obs_off r : obs Ground reversed (27 :: 91 :: 50 :: 55 :: 109 :: r) = obs Ground pen0 r.
Proof. reflexivity. Qed.

(* ---------- C214 ---------- *)

(** Drawing cannot fail unless a negative height was set. *)
Theorem C214_never_fails : forall sw os, 0 <= height (conf (core (area_of os))) -> view sw (area_of os) <> None.
Proof.
  intros sw os H. unfold view. destruct (is_empty _); [destruct (ph _); discriminate|].
  rewrite core_area in *. destruct (C62_visible_lines_are_the_window (edits os) H) as [_ E]. cbv zeta in E. rewrite E. discriminate.
Qed.

(** The text is not empty, the cursor's row is on screen and the cursor is on: the screen shows
    the lines of the window; the character at the cursor (or a blank, at the end of a line) is
    the only one in reverse video, everything else is plain, and ContentParts() is what stands
    around it. *)
Theorem C214_cursor_is_shown : forall sw os, let a := area_of os in let t := core a in
  0 <= height (conf t) -> clean t -> value t <> [] -> nums a = false -> curs a = true ->
  srow t <= Z.of_nat (row t) < srow t + height (conf t) ->
  let above := firstn (row t - Z.to_nat (srow t)) (window t) in
  let below := skipn (S (row t - Z.to_nat (srow t))) (window t) in
  exists v b at_ af, view sw a = Some v /\ content_parts t = (b, [at_], af) /\
    shows v (paint pen0 (flat_map (fun x => x ++ [nl]) above ++ b) ++ [(at_, reversed)] ++
             paint pen0 (af ++ flat_map (fun x => nl :: x) below)) pen0.
Proof.
  intros sw os a t Hh Cl Ne Nu Cu Hr above below.
  assert (T : t = apply_all (edits os) new_ta) by apply core_area.
  assert (V : valid t) by (rewrite T; apply (apply_all_keeps (edits os) new_ta new_valid)).
  assert (W : 0 <= srow t /\ visible_lines t = Some (window t)).
  { generalize (C62_visible_lines_are_the_window (edits os)). cbv zeta. rewrite <- T. intros G. apply G. exact Hh. }
  destruct W as [S0 W].
  assert (L : nth_error (window t) (row t - Z.to_nat (srow t)) = Some (nth (row t) (buf t) [])).
  { destruct V as [V _ _]. unfold window. rewrite nth_error_firstn. replace (row t - Z.to_nat (srow t) <? Z.to_nat (height (conf t)))%nat with true by (symmetry; apply Nat.ltb_lt; lia).
    rewrite <- (firstn_skipn (Z.to_nat (srow t)) (buf t)) at 2. rewrite app_nth2; rewrite firstn_length_le by lia; [|lia]. apply nth_error_nth'. rewrite skipn_length. lia. }
  assert (D : window t = above ++ nth (row t) (buf t) [] :: below).
  { unfold above, below. clear -L. revert L. generalize (nth (row t) (buf t) []), (row t - Z.to_nat (srow t))%nat. induction (window t) as [|y w IH]; intros l n L; [destruct n; discriminate|].
    destruct n; cbn in *; [congruence|]. f_equal. now apply IH. }
  assert (LA : length above = (row t - Z.to_nat (srow t))%nat).
  { unfold above. apply firstn_length_le. apply Nat.lt_le_incl. apply nth_error_Some. rewrite L. discriminate. }
  assert (Cw : Forall (fun l => ~ In 27 l /\ ~ In nl l) (window t)).
  { unfold window. apply Forall_forall. intros l Hl. apply (proj1 (Forall_forall _ _) Cl). apply (firstn_skipn (Z.to_nat (srow t)) (buf t)) in Hl || idtac.
    rewrite <- (firstn_skipn (Z.to_nat (srow t)) (buf t)). apply in_or_app. right.
    rewrite <- (firstn_skipn (Z.to_nat (height (conf t))) (skipn (Z.to_nat (srow t)) (buf t))). apply in_or_app. now left. }
  assert (Ev : view sw a = Some (draw_lines a 0 (window t))).
  { unfold view. fold t. rewrite W. destruct (is_empty t) eqn:E; [|reflexivity]. apply empty_value in E; [contradiction|]. destruct V; lia. }
  rewrite D in Cw, Ev. apply Forall_app in Cw. destruct Cw as [CA CB]. inversion CB as [|? ? Cl0 CB']. subst.
  set (l := nth (row t) (buf t) []) in *.
  rewrite (draw_around a above l below 0%nat Nu) in Ev by (cbn [Nat.add]; fold t; lia).
  assert (Dl : draw_line a (0 + length above) l = line_with_cursor l (col t)).
  { unfold draw_line. rewrite Nu, Cu. cbn [app]. fold t. replace (Z.of_nat (0 + length above) + srow t =? Z.of_nat (row t)) with true by lia. reflexivity. }
  rewrite Dl in Ev. clear Dl.
  assert (NA : ~ In 27 (flat_map (fun x => x ++ [nl]) above)).
  { rewrite in_flat_map. intros (x & Hx & Hi). apply in_app_or in Hi. destruct Hi as [Hi|[Hi|[]]]; [|discriminate Hi]. exact (proj1 (proj1 (Forall_forall _ _) CA x Hx) Hi). }
  assert (NB : ~ In 27 (flat_map (fun x => nl :: x) below)).
  { rewrite in_flat_map. intros (x & Hx & Hi). destruct Hi as [Hi|Hi]; [discriminate Hi|]. exact (proj1 (proj1 (Forall_forall _ _) CB' x Hx) Hi). }
  destruct Cl0 as [Nl _].
  exists (flat_map (fun x => x ++ [nl]) above ++ line_with_cursor l (col t) ++ flat_map (fun x => nl :: x) below).
  unfold line_with_cursor, content_parts, cur_line, get_line. fold l. fold t.
  destruct (length l <=? col t)%nat eqn:E.
  - exists l, 32, []. split; [rewrite Ev; unfold line_with_cursor; rewrite E; reflexivity|]. split; [reflexivity|]. unfold shows. rewrite <- !app_assoc. cbn [app].
    rewrite (obs_pre pen0 _ _ NA), (obs_pre pen0 _ _ Nl), obs_on. change (32 :: 27 :: ?x) with ([32] ++ 27 :: x).
    rewrite (obs_pre reversed [32]) by (intros [I|[]]; discriminate I). rewrite obs_off, (obs_text pen0 _ NB).
    unfold paint. rewrite !map_app, <- !app_assoc. reflexivity.
  - apply Nat.leb_gt in E. destruct (skipn (col t) l) as [|c r] eqn:Sk.
    { apply (f_equal (@length Z)) in Sk. rewrite skipn_length in Sk. cbn in Sk. lia. }
    assert (Sr : skipn (S (col t)) l = r).
    { replace (S (col t)) with (1 + col t)%nat by lia. rewrite <- (firstn_skipn (col t) l) at 1. rewrite Sk.
      rewrite skipn_app, skipn_all2 by (rewrite firstn_length; lia). rewrite firstn_length_le by lia. replace (1 + col t - col t)%nat with 1%nat by lia. reflexivity. }
    rewrite Sr. cbn [firstn]. exists (firstn (col t) l), c, r. split; [|split; [reflexivity|]].
    { rewrite Ev. unfold line_with_cursor. apply Nat.leb_gt in E. rewrite E, Sk, Sr. reflexivity. }
    assert (El : l = firstn (col t) l ++ c :: r) by (rewrite <- Sk; symmetry; apply firstn_skipn).
    assert (N1 : ~ In 27 (firstn (col t) l)) by (intros I; apply Nl; rewrite El; apply in_or_app; now left).
    assert (N2 : ~ In 27 r) by (intros I; apply Nl; rewrite El; apply in_or_app; right; now right).
    assert (N3 : c <> 27) by (intros ->; apply Nl; rewrite El; apply in_or_app; right; now left).
    unfold shows. rewrite <- !app_assoc. cbn [app].
    rewrite (obs_pre pen0 _ _ NA), (obs_pre pen0 _ _ N1), obs_on. change (c :: 27 :: ?x) with ([c] ++ 27 :: x).
    rewrite (obs_pre reversed [c]) by (intros [I|[]]; congruence). rewrite obs_off, (obs_pre pen0 _ _ N2), (obs_text pen0 _ NB).
    unfold paint. rewrite !map_app, <- !app_assoc. reflexivity.
Qed.

(** With the cursor off, or its row off screen, the view is exactly the lines of the window. *)
Theorem C214_plain_view : forall sw os, let a := area_of os in let t := core a in
  0 <= height (conf t) -> value t <> [] -> nums a = false ->
  (curs a = false \/ Z.of_nat (row t) < srow t \/ srow t + height (conf t) <= Z.of_nat (row t)) ->
  view sw a = Some (join_lines (window t)).
Proof.
  intros sw os a t Hh Ne Nu Hc.
  assert (T : t = apply_all (edits os) new_ta) by apply core_area.
  assert (V : valid t) by (rewrite T; apply (apply_all_keeps (edits os) new_ta new_valid)).
  assert (W : 0 <= srow t /\ visible_lines t = Some (window t)).
  { generalize (C62_visible_lines_are_the_window (edits os)). cbv zeta. rewrite <- T. intros G. apply G. exact Hh. }
  destruct W as [S0 W]. unfold view. fold t. rewrite W. destruct (is_empty t) eqn:E.
  { apply empty_value in E; [contradiction|]. destruct V; lia. }
  cbn [option_map]. f_equal. apply plain_lines; auto. intros j Hj. cbn [Nat.add]. fold t.
  assert (Z.of_nat (length (window t)) <= height (conf t)) by (unfold window; rewrite firstn_length; lia).
  destruct Hc as [C|[C|C]]; [now left|right; lia|right; lia].
Qed.

(** The view never has more rows than Height. *)
Lemma line_clean l c : ~ In nl l -> ~ In nl (line_with_cursor l c).
Proof.
  intros H I. unfold line_with_cursor in I. destruct (_ <=? _)%nat.
  - apply in_app_or in I. destruct I as [I|I]; [auto|]. cbn in I. unfold nl in I. lia.
  - assert (F : forall x, In x (firstn c l) \/ In x (skipn c l) -> In x l) by (intros x Hx; rewrite <- (firstn_skipn c l); apply in_or_app; exact Hx).
    rewrite !in_app_iff in I. destruct I as [I|[I|[I|[I|I]]]].
    + apply H, F. now left.
    + cbn in I. unfold nl in I. lia.
    + apply H, F. right. destruct (skipn c l); [destruct I|]. cbn in I. destruct I as [I|[]]. left. exact I.
    + cbn in I. unfold nl in I. lia.
    + apply H, F. right. replace (S c) with (c + 1)%nat in I by lia. rewrite <- (firstn_skipn c l) in I.
      rewrite skipn_app, skipn_all2 in I by (rewrite firstn_length; lia). cbn [app] in I. 
      rewrite <- (firstn_skipn (c + 1 - length (firstn c l)) (skipn c l)). apply in_or_app. now right.
Qed.
Lemma digits_not_nl n : 0 <= n -> ~ In nl (dec n).
Proof.
  intros H I. destruct (dec_spec n H) as (_ & D & _). rewrite forallb_forall in D. apply D in I. discriminate I.
Qed.
Lemma number_clean n : 0 <= n -> ~ In nl (number n).
Proof.
  intros H I. unfold number in I. rewrite !in_app_iff in I. destruct I as [I|[I|I]].
  - apply repeat_spec in I. discriminate I.
  - exact (digits_not_nl n H I).
  - cbn in I. unfold nl in I. lia.
Qed.
Lemma drawn_clean a i l : 0 <= srow (core a) -> ~ In nl l -> ~ In nl (draw_line a i l).
Proof.
  intros S0 H I. unfold draw_line in I. apply in_app_or in I. destruct I as [I|I].
  - destruct (nums a); [|destruct I]. revert I. apply number_clean. lia.
  - revert I. destruct (_ && _); [now apply line_clean|auto].
Qed.
Lemma split_join ls : ls <> [] -> Forall (fun l => ~ In nl l) ls -> split_lines (join_lines ls) = ls.
Proof.
  assert (A : forall l, ~ In nl l -> split_lines l = [l]).
  { induction l as [|c l IH]; intros H; [reflexivity|]. cbn [split_lines]. rewrite IH by (intros I; apply H; now right).
    replace (c =? nl) with false by (symmetry; apply Z.eqb_neq; intros ->; apply H; now left). reflexivity. }
  assert (B : forall l t, ~ In nl l -> split_lines (l ++ nl :: t) = l :: split_lines t).
  { induction l as [|c l IH]; intros t H.
    - cbn [app split_lines]. destruct (split_lines t) as [|x y] eqn:E; [|reflexivity]. destruct t as [|c t]; cbn in E; [discriminate|]. destruct (split_lines t); [discriminate|]. destruct (c =? nl); discriminate.
    - cbn [app split_lines]. rewrite IH by (intros I; apply H; now right).
      replace (c =? nl) with false by (symmetry; apply Z.eqb_neq; intros ->; apply H; now left). reflexivity. }
  induction ls as [|l ls IH]; intros N F; [congruence|]. inversion F as [|? ? F1 F2]; subst. destruct ls as [|l2 ls]; [now apply A|].
  change (join_lines (l :: l2 :: ls)) with (l ++ nl :: join_lines (l2 :: ls)). rewrite B by auto. f_equal. apply IH; auto. discriminate.
Qed.
Lemma view_lines sw os : let a := area_of os in let t := core a in 0 <= height (conf t) -> clean t -> value t <> [] -> window t <> [] ->
  exists v, view sw a = Some v /\ split_lines v = map (fun p => draw_line a (fst p) (snd p)) (combine (seq 0 (length (window t))) (window t)).
Proof.
  intros a t Hh Cl Ne Nw.
  assert (T : t = apply_all (edits os) new_ta) by apply core_area.
  assert (V : valid t) by (rewrite T; apply (apply_all_keeps (edits os) new_ta new_valid)).
  assert (W : 0 <= srow t /\ visible_lines t = Some (window t)).
  { generalize (C62_visible_lines_are_the_window (edits os)). cbv zeta. rewrite <- T. intros G. apply G. exact Hh. }
  destruct W as [S0 W]. exists (draw_lines a 0 (window t)). split.
  { unfold view. fold t. rewrite W. destruct (is_empty t) eqn:E; [|reflexivity]. apply empty_value in E; [contradiction|]. destruct V; lia. }
  rewrite draw_join. apply split_join.
  - destruct (window t); [congruence|discriminate].
  - apply Forall_forall. intros x Hx. apply in_map_iff in Hx. destruct Hx as ((i, l) & <- & Hi). cbn [fst snd]. apply drawn_clean; auto.
    apply in_combine_r in Hi. unfold window in Hi.
    assert (In l (buf t)).
    { rewrite <- (firstn_skipn (Z.to_nat (srow t)) (buf t)). apply in_or_app. right.
      rewrite <- (firstn_skipn (Z.to_nat (height (conf t))) (skipn (Z.to_nat (srow t)) (buf t))). apply in_or_app. now left. }
    exact (proj2 (proj1 (Forall_forall _ _) Cl l H)).
Qed.
Theorem C214_rows : forall sw os, let a := area_of os in let t := core a in
  0 <= height (conf t) -> clean t -> value t <> [] -> window t <> [] ->
  exists v, view sw a = Some v /\ length (split_lines v) = length (window t) /\ Z.of_nat (length (split_lines v)) <= height (conf t).
Proof.
  intros sw os a t Hh Cl Ne Nw. destruct (view_lines sw os Hh Cl Ne Nw) as (v & E & L). exists v. split; [exact E|]. fold a in L. fold t in L.
  rewrite L, map_length, combine_length, seq_length, Nat.min_id. split; [reflexivity|]. unfold window. rewrite firstn_length. lia.
Qed.

(** Line numbers are a prefix of every row: the row's 1-based number in the text, right-aligned
    in four columns, and a blank. Nothing else changes. *)
Theorem C214_line_numbers : forall sw os, let a := area_of os in let t := core a in
  0 <= height (conf t) -> clean t -> value t <> [] -> window t <> [] -> nums a = true ->
  exists v v', view sw a = Some v /\ view sw (with_nums a false) = Some v' /\ length (split_lines v) = length (split_lines v') /\
    forall i r, nth_error (split_lines v) i = Some r ->
      exists r', nth_error (split_lines v') i = Some r' /\ r = number (Z.of_nat i + srow t + 1) ++ r'.
Proof.
  intros sw os a t Hh Cl Ne Nw Nu. destruct (view_lines sw os Hh Cl Ne Nw) as (v & E & L). fold a in E, L. fold t in L.
  pose (os' := os ++ [ALineNumbers false]).
  assert (A' : area_of os' = with_nums a false) by (unfold area_of, asteps, os'; rewrite fold_left_app; reflexivity).
  destruct (view_lines sw os') as (v' & E' & L'); try (rewrite A'; assumption).
  rewrite A' in E', L'. cbn [core with_nums] in L'. fold t in L'. exists v, v'. split; [exact E|]. split; [exact E'|]. rewrite L, L', !map_length. split; [reflexivity|].
  intros i r Hr. rewrite nth_error_map in Hr |- *. destruct (nth_error (combine _ _) i) as [(j, l)|] eqn:Ec; [|discriminate]. cbn [option_map fst snd] in *.
  apply (f_equal (fun o => match o with Some x => x | None => [] end)) in Hr. cbn in Hr. eexists. split; [reflexivity|]. subst r.
  assert (Ej : forall (w : list (list Z)) (s k : nat), nth_error (combine (seq s (length w)) w) k = Some (j, l) -> j = (s + k)%nat).
  { clear. induction w as [|y w IH]; intros s k H; [destruct k; discriminate|]. destruct k; cbn in H; [assert (s = j) by congruence; lia|]. apply IH in H. lia. }
  apply Ej in Ec. cbn [Nat.add] in Ec.
  subst j. unfold draw_line. rewrite Nu. cbn [nums with_nums core row curs app]. reflexivity.
Qed.

(** A line number up to 9999 takes exactly five columns and reads as that number. *)
Theorem C214_number_format : forall n, 1 <= n <= 9999 ->
  length (number n) = 5%nat /\ last (number n) 0 = 32 /\
  exists k d, number n = repeat 32 k ++ d ++ [32] /\ forallb is_digit d = true /\ d <> [] /\ undec_acc 0 d = n /\ hd 48 d <> 48.
Proof.
  intros n H. assert (B : (length (dec n) <=? 4)%nat && negb (hd 48 (dec n) =? 48) = true).
  { assert (G : forallb (fun k => (length (dec (Z.of_nat k)) <=? 4)%nat && negb (hd 48 (dec (Z.of_nat k)) =? 48)) (seq 1 (Z.to_nat 9999)) = true) by (vm_compute; reflexivity).
    rewrite forallb_forall in G. specialize (G (Z.to_nat n)). rewrite Z2Nat.id in G by lia. apply G. apply in_seq. lia. }
  apply andb_prop in B. destruct B as [B1 B2]. apply Nat.leb_le in B1. apply negb_true_iff, Z.eqb_neq in B2.
  unfold number. rewrite !app_length, repeat_length. cbn [length]. split; [lia|]. split; [now rewrite !app_assoc, last_last|].
  destruct (dec_spec n ltac:(lia)) as (N & D & _). exists (4 - length (dec n))%nat, (dec n). split; [reflexivity|]. split; [exact D|]. split; [exact N|]. split; [apply dec_undec; lia|exact B2].
Qed.

Definition sw_len (l : list Z) : Z := Z.of_nat (length l).
Definition sample : list aop := [AEdit (OSize 10 2); AEdit (OSetValue [97; 98; 10; 99; 100; 10; 101]); AEdit (OKey (plain KDown)); AEdit (OKey (plain KRight)); ALineNumbers true].
Example C214_sample_ex : let a := area_of sample in
  view sw_len a = Some ([32; 32; 32; 49; 32; 97; 98; 10; 32; 32; 32; 50; 32; 99] ++ [27; 91; 55; 109; 100; 27; 91; 50; 55; 109]) /\ clean (core a) /\ value (core a) <> [] /\ window (core a) <> [] /\ nums a = true /\ curs a = true /\ srow (core a) <= Z.of_nat (row (core a)) < srow (core a) + height (conf (core a)).
Proof.
  cbv zeta. split; [vm_compute; reflexivity|]. split; [|split; [discriminate|split; [discriminate|split; [reflexivity|split; [reflexivity|vm_compute; split; congruence]]]]].
  vm_compute. repeat (constructor; [intuition lia|]). constructor.
Qed.

(* ---------- C215 ---------- *)

Definition grey : pen := Pen (Some (TermEmu.Rgb 88 88 88)) None false false false false false false false false.

(** While there is no text the placeholder is what is shown, in grey, and the terminal is back
    at its defaults afterwards; with no placeholder nothing is written. *)
Theorem C215_placeholder : forall sw os, let a := area_of os in value (core a) = [] -> Forall scalar (ph a) -> ~ In 27 (ph a) ->
  exists v, view sw a = Some v /\ shows v (paint grey (ph a)) pen0.
Proof.
  intros sw os a Ve Sc Ne.
  assert (E : is_empty (core a) = true).
  { apply empty_value; auto. unfold a. rewrite core_area. destruct (apply_all_keeps (edits os) new_ta new_valid) as [[V _ _] _]. lia. }
  unfold view. rewrite E. destruct (ph a) as [|c r] eqn:P; [exists []; split; [reflexivity|reflexivity]|].
  eexists. split; [reflexivity|]. unfold draw_placeholder. rewrite P.
  set (s := SyModel.styled _).
  assert (X : shows (SyModel.render sw s (c :: r)) (paint (style_pen s) (SyModel.laid_out sw s (c :: r))) pen0).
  { apply SyRenderProps.C109_shown; auto; try reflexivity.
    - split; [|split]; intros k K; try discriminate K. apply (f_equal (fun o => match o with Some x => x | None => k end)) in K. cbn [SyModel.fg s SyModel.styled fold_left SyModel.step SyModel.with_colors] in K.
      subst k. vm_compute. repeat split; discriminate.
    - intros b K. discriminate K. }
  exact X.
Qed.

(** The placeholder plays no part once there is text. *)
Theorem C215_hidden_by_text : forall sw os p, let a := area_of os in value (core a) <> [] ->
  view sw (area_of (os ++ [APlaceholder p])) = view sw a.
Proof.
  intros sw os p a Ne. replace (area_of (os ++ [APlaceholder p])) with (Area (core a) p (nums a) (curs a)).
  2:{ unfold area_of, asteps. rewrite fold_left_app. reflexivity. }
  unfold view. cbn [core]. destruct (is_empty (core a)) eqn:E.
  - apply empty_value in E; [contradiction|]. unfold a. rewrite core_area. destruct (apply_all_keeps (edits os) new_ta new_valid) as [[V _ _] _]. lia.
  - destruct (visible_lines (core a)); [|reflexivity]. cbn [option_map]. f_equal. now apply draw_ext.
Qed.

(** Display settings never touch the text, the cursor or what keys do. *)
Theorem C215_settings_only_affect_display : forall os s b, core (area_of (os ++ [APlaceholder s])) = core (area_of os) /\ core (area_of (os ++ [ALineNumbers b])) = core (area_of os) /\ core (area_of (os ++ [AShowCursor b])) = core (area_of os) /\ ph (area_of (os ++ [APlaceholder s])) = s /\ nums (area_of (os ++ [ALineNumbers b])) = b /\ curs (area_of (os ++ [AShowCursor b])) = b.
Proof. intros. unfold area_of, asteps. rewrite !fold_left_app. cbn. auto 10. Qed.
(** Editing keeps the display settings. *)
Theorem C215_settings_are_kept : forall os es, let a := area_of os in let b := area_of (os ++ map AEdit es) in
  ph b = ph a /\ nums b = nums a /\ curs b = curs a.
Proof.
  intros os es a b. unfold b, area_of, asteps. rewrite fold_left_app. fold (asteps os new_area). fold (area_of os). fold a. clearbody a. clear b.
  revert a. induction es as [|e es IH]; intros a; [auto|]. cbn [map fold_left]. apply (IH (astep (AEdit e) a)).
Qed.
(** Unless told otherwise: the cursor shown, no line numbers, no placeholder. *)
Theorem C215_defaults : forall es, let a := area_of (map AEdit es) in ph a = [] /\ nums a = false /\ curs a = true.
Proof. intros es a. exact (C215_settings_are_kept [] es). Qed.
Example C215_ex : let a := area_of [APlaceholder [104; 105]] in value (core a) = [] /\ Forall scalar (ph a) /\ ~ In 27 (ph a) /\ view sw_len (area_of [APlaceholder [104; 105]; AEdit (OKey (plain (KRune 120)))]) = Some [120; 27; 91; 55; 109; 32; 27; 91; 50; 55; 109].
Proof. split; [reflexivity|]. split; [repeat constructor; unfold scalar; cbn; lia|]. split; [cbn; intuition lia|reflexivity]. Qed.

(* ---------- C216: the cursor is drawn while the area is empty (violated) ---------- *)

(** With text, one cell is in reverse video. *)
Theorem C216_with_text_partial : forall sw os, let a := area_of os in let t := core a in
  0 <= height (conf t) -> clean t -> value t <> [] -> nums a = false -> curs a = true ->
  srow t <= Z.of_nat (row t) < srow t + height (conf t) ->
  exists v cells, view sw a = Some v /\ shows v cells pen0 /\ length (filter (fun c => p_reverse (snd c)) cells) = 1%nat.
Proof.
  intros sw os a t H1 H2 H3 H4 H5 H6. destruct (C214_cursor_is_shown sw os H1 H2 H3 H4 H5 H6) as (v & b & c & af & E & _ & Sh).
  exists v. eexists. split; [exact E|]. split; [exact Sh|].
  assert (P : forall l, filter (fun c : Z * pen => p_reverse (snd c)) (paint pen0 l) = []) by (induction l; auto).
  rewrite !filter_app, !P. reflexivity.
Qed.
(** Without text nothing is in reverse video, whatever ShowCursor says: an empty area gives no sign of a cursor. *)
Theorem C216_empty_refuted : forall sw os, let a := area_of os in value (core a) = [] -> ph a = [] -> view sw a = Some [].
Proof.
  intros sw os a Ve P. assert (E : is_empty (core a) = true).
  { apply empty_value; auto. unfold a. rewrite core_area. destruct (apply_all_keeps (edits os) new_ta new_valid) as [[V _ _] _]. lia. }
  unfold view. now rewrite E, P.
Qed.

(* ---------- C217: no row is wider than Width (violated) ---------- *)

(** Rows of text that fits are drawn as they are. *)
Theorem C217_fitting_text_partial : forall sw os, let a := area_of os in let t := core a in
  0 <= height (conf t) -> clean t -> value t <> [] -> window t <> [] -> nums a = false -> curs a = false ->
  Forall (fun l => Z.of_nat (length l) <= width (conf t)) (buf t) ->
  exists v, view sw a = Some v /\ Forall (fun l => Z.of_nat (length l) <= width (conf t)) (split_lines v).
Proof.
  intros sw os a t H1 H2 H3 H4 H5 H6 H7. destruct (view_lines sw os H1 H2 H3 H4) as (v & E & L). exists v. split; [exact E|]. rewrite L.
  apply Forall_forall. intros x Hx. apply in_map_iff in Hx. destruct Hx as ((i, l) & <- & Hi). cbn [fst snd]. unfold draw_line. fold a. rewrite H5, H6, andb_false_r. cbn [app].
  apply in_combine_r in Hi. rewrite Forall_forall in H7. apply H7. fold a in Hi. fold t in Hi. unfold window in Hi.
  rewrite <- (firstn_skipn (Z.to_nat (srow t)) (buf t)). apply in_or_app. right.
  rewrite <- (firstn_skipn (Z.to_nat (height (conf t))) (skipn (Z.to_nat (srow t)) (buf t))). apply in_or_app. now left.
Qed.
(** A longer line is neither cut, scrolled nor wrapped, whatever the width and the wrap setting:
    for every width and every line there is an area of that width drawing it in full. *)
Theorem C217_overflow_refuted : forall sw w b l, ~ In nl l -> l <> [] ->
  view sw (area_of [AEdit (OSize w 5); AEdit (OWrap b); AEdit (OSetValue l); AEdit OMoveCursorToEnd; AShowCursor false]) = Some l.
Proof.
  intros sw w b l Nn Nl. assert (Sp : split_lines l = [l]).
  { rewrite <- (split_join [l]); [reflexivity|discriminate|]. constructor; [exact Nn|constructor]. }
  unfold area_of, asteps. cbn [fold_left astep apply]. unfold view. cbn [core ph]. unfold with_buffer. rewrite Sp. cbn. destruct l as [|c r]; [congruence|]. cbn. reflexivity.
Qed.

(* ---------- C218: View never panics (violated) ---------- *)

Theorem C218_height_partial : forall sw os, 0 <= height (conf (core (area_of os))) -> exists v, view sw (area_of os) = Some v.
Proof. intros sw os H. destruct (view sw (area_of os)) eqn:E; [eauto|]. exfalso. exact (C214_never_fails sw os H E). Qed.
(** A negative height, as a layout computes one for a small screen, makes View panic. *)
Theorem C218_negative_height_refuted : forall sw h c, h < 0 -> c <> nl ->
  view sw (area_of [AEdit (OSize 80 h); AEdit (OSetValue [c])]) = None.
Proof.
  intros sw h c H Hc. unfold area_of, asteps. cbn [fold_left astep apply split_lines]. rewrite (proj2 (Z.eqb_neq c nl) Hc). unfold view. cbn [core ph].
  unfold with_buffer, set_cfg. cbn [buf is_empty]. unfold visible_lines. cbn [srow conf height buf length]. 
  change (srow (core new_area)) with 0. replace (Z.of_nat 1 <? 0 + h) with false by lia. replace (0 + h <? 0) with true by lia. reflexivity.
Qed.

Print Assumptions C214_never_fails. Print Assumptions C214_cursor_is_shown. Print Assumptions C214_plain_view. Print Assumptions C214_rows.
Print Assumptions C214_line_numbers. Print Assumptions C214_number_format. Print Assumptions C215_placeholder. Print Assumptions C215_hidden_by_text.
Print Assumptions C215_settings_only_affect_display. Print Assumptions C215_settings_are_kept. Print Assumptions C215_defaults. Print Assumptions C216_with_text_partial.
Print Assumptions C216_empty_refuted. Print Assumptions C217_fitting_text_partial. Print Assumptions C217_overflow_refuted. Print Assumptions C218_height_partial.
Print Assumptions C218_negative_height_refuted.
