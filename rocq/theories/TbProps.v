(** C33, C34, C69 to C73: the table. *)
From Coq Require Import Permutation Sorted.
From Verif Require Import Prelude KeysModel TbModel TbSpec TbProofs.

(* ---------- C33 ---------- *)
(** After any history the selected row is a row of the table (or there is none). *)
Theorem C33_selection_always_valid : forall fmt sorter, sort_contract sorter -> forall cols os,
  let t := tsteps fmt sorter os (new_table cols) in
  (rows t = [] /\ tsel t = 0 /\ selected_row t = None) \/
  (0 <= tsel t < Z.of_nat (length (rows t)) /\ exists r, selected_row t = Some r /\ In r (rows t)).
Proof.
  intros fmt sorter C cols os t. pose proof (tsteps_valid fmt sorter C os _ (new_valid cols)) as V. fold t in V. pose proof (nrows_rows _ V) as N. destruct V as (A & B & D).
  unfold selected_row. rewrite N in *. destruct D as [D|[D1 D2]].
  - right. split; [lia|]. replace (_ && _) with true by lia. destruct (nth_error (effective t) (Z.to_nat (tsel t))) as [r|] eqn:E.
    + exists r. split; auto. rewrite A. eapply nth_error_In; eauto.
    + apply nth_error_None in E. rewrite <- (Permutation_length A) in E. lia.
  - left. rewrite D1, D2. destruct (rows t); [auto|cbn in D1; lia].
Qed.
(** With a sane configuration the visible rows are the ones from the scroll offset that fit, and the selected one is among them. *)
Theorem C260_selection_visible : forall fmt sorter, sort_contract sorter -> forall cols os, tsane_run fmt sorter (new_table cols) os ->
  let t := tsteps fmt sorter os (new_table cols) in
  visible_rows t = Some (firstn (Z.to_nat (fits t)) (skipn (Z.to_nat (tscroll t)) (effective t))) /\
  tscroll t <= tsel t < tscroll t + fits t /\
  (rows t <> [] -> exists r vs, selected_row t = Some r /\ visible_rows t = Some vs /\ nth_error vs (Z.to_nat (tsel t - tscroll t)) = Some r).
Proof.
  intros fmt sorter C cols os N t. pose proof (tsteps_valid fmt sorter C os _ (new_valid cols)) as V.
  assert (S : tseen t) by (apply tsteps_seen; auto using new_valid; repeat split; cbn; lia). fold t in V.
  pose proof (visible_exact _ V S) as E. pose proof (nrows_rows _ V) as L. destruct V as (A & B & D). pose proof S as (S1 & S2 & S3). change (fits t) with (vis t).
  split; [exact E|]. split; [lia|]. intros NE. assert (D' : tsel t < nrows t) by (destruct (rows t); [congruence|cbn [length] in L; lia]).
  unfold selected_row. replace (_ && _) with true by lia. unfold nrows in *.
  destruct (nth_error (effective t) (Z.to_nat (tsel t))) as [r|] eqn:R; [|apply nth_error_None in R; lia].
  exists r, (firstn (Z.to_nat (vis t)) (skipn (Z.to_nat (tscroll t)) (effective t))). repeat split; auto.
  assert (F : forall (B : Type) n i (l : list B), (i < n)%nat -> nth_error (firstn n l) i = nth_error l i).
  { intros T n. induction n as [|n IH]; intros i l H; [lia|]. destruct l; [reflexivity|]. destruct i; [reflexivity|]. cbn. apply IH. lia. }
  assert (K : forall (B : Type) n i (l : list B), nth_error (skipn n l) i = nth_error l (n + i)).
  { intros T n. induction n as [|n IH]; intros i l; [reflexivity|]. destruct l; [destruct i; reflexivity|]. cbn. apply IH. }
  rewrite F by lia. rewrite K. replace (_ + _)%nat with (Z.to_nat (tsel t)) by lia. exact R.
Qed.
(** A smaller height leaves the selection outside the window; height 0 with a header crashes the view. *)
Definition fmt0 (c : cell) : list Z := match c with CStr s => s | _ => [] end.
Definition rw (s : list Z) : row := fun _ => CStr s.
Theorem C71_resize_hides_selection_refuted : exists os t, t = tsteps fmt0 (@isort row) os (new_table []) /\
  tsel t = 3 /\ tscroll t + fits t = 2 /\ visible_rows t = Some [rw [48]; rw [49]].
Proof. exists [TRows [rw [48]; rw [49]; rw [50]; rw [51]]; TKey (plain KEnd); THeight 3]. eexists. split; [reflexivity|]. repeat split; reflexivity. Qed.
Theorem C71_zero_height_crashes_refuted : exists os, view fmt0 (tsteps fmt0 (@isort row) os (new_table [])) = None.
Proof. exists [TRows [rw [48]]; THeight 0]. reflexivity. Qed.
Example C33_ex : let t := tsteps fmt0 (@isort row) [THeight 3; TRows [rw [48]; rw [49]; rw [50]; rw [51]]; TKey (plain KDown); TKey (plain KDown)] (new_table []) in
  tsane_run fmt0 (@isort row) (new_table []) [THeight 3; TRows [rw [48]; rw [49]; rw [50]; rw [51]]; TKey (plain KDown); TKey (plain KDown)] /\
  tsel t = 2 /\ tscroll t = 1 /\ visible_rows t = Some [rw [49]; rw [50]].
Proof. repeat split; cbn; lia. Qed.
Print Assumptions C33_selection_always_valid.
Print Assumptions C260_selection_visible.

(* ---------- C34 ---------- *)
(** Sorting by a sortable column with values of one type: the rows shown are a permutation of the
    rows, no row is followed by one that belongs before it, and rows with equal values keep their order. *)
Definition in_order (d : dir) (key : list Z) (a b : row) : Prop :=
  match d with DDesc => ~ below (a key) (b key) | _ => ~ below (b key) (a key) end.
Definition same_value (key : list Z) (a b : row) : Prop := ~ below (a key) (b key) /\ ~ below (b key) (a key).
Lemma find_key (l : list column) k c : find (fun c => list_eqb (ckey c) k) l = Some c -> In c l /\ ckey c = k.
Proof. intros E. apply find_some in E as [I E]. now apply list_eqb_eq in E. Qed.
Theorem C34_sort_is_stable_sorted_permutation : forall fmt sorter, sort_contract sorter -> forall t key c,
  find (fun c => list_eqb (ckey c) key) (columns t) = Some c -> sortable c = true -> uniform (rows t) key ->
  let t' := tstep fmt sorter t (TSort key) in
  sdir t' = (match sdir t with DNone => DAsc | d => if list_eqb (skey t) key then match d with DAsc => DDesc | _ => DAsc end else DAsc end) /\
  rows t' = rows t /\ Permutation (rows t) (effective t') /\ StronglySorted (in_order (sdir t') key) (effective t') /\
  (forall x p, In x (rows t) -> (forall y, In y (rows t) -> p y = true <-> same_value key x y) -> filter p (effective t') = filter p (rows t)).
Proof.
  intros fmt sorter C t key c F So U t'.
  set (d0 := match sdir t with DNone => DAsc | d => if list_eqb (skey t) key then toggle_dir d else DAsc end).
  assert (Et : t' = sort_by t key d0 (sort_rows fmt sorter (rows t) key d0)) by (unfold t'; cbn [tstep]; unfold sort_by_column; rewrite F, So; reflexivity).
  assert (Nd : d0 <> DNone) by (unfold d0; destruct (sdir t); [discriminate|destruct (list_eqb _ _); discriminate|destruct (list_eqb _ _); discriminate]).
  rewrite Et. split; [unfold d0; destruct (sdir t); reflexivity|]. split; [reflexivity|].
  change (effective (sort_by t key d0 (sort_rows fmt sorter (rows t) key d0))) with (sort_rows fmt sorter (rows t) key d0).
  change (sdir (sort_by t key d0 (sort_rows fmt sorter (rows t) key d0))) with d0. clearbody d0. clear t' Et F.
  assert (SS : stable_sorted (less fmt key d0) (rows t) (sort_rows fmt sorter (rows t) key d0)).
  { unfold sort_rows. destruct d0; [congruence| |]; destruct (rows t) as [|r rs] eqn:E; try (constructor; auto; constructor); apply C; apply less_weak; auto. }
  destruct SS as [P O S]. split; [exact P|]. destruct U as [k U].
  assert (LB : forall a b, In a (rows t) -> In b (rows t) -> (less fmt key d0 a b = true <-> match d0 with DDesc => below (b key) (a key) | _ => below (a key) (b key) end)).
  { intros a b Ia Ib. pose proof (compare_below fmt k _ _ (U a Ia) (U b Ib)). pose proof (compare_below fmt k _ _ (U b Ib) (U a Ia)). pose proof (compare_anti fmt k _ _ (U a Ia) (U b Ib)).
    destruct d0; [congruence| |]; cbn [less]; rewrite Z.ltb_lt; [tauto|]. rewrite <- H0. lia. }
  split.
  - assert (FI : Forall (fun r => In r (rows t)) (sort_rows fmt sorter (rows t) key d0)) by (rewrite <- P; apply Forall_forall; auto).
    clear S P. induction O as [|a l O IH Ha]; [constructor|]. apply Forall_cons_iff in FI as [Ia Il]. constructor; auto.
    rewrite Forall_forall in *. intros b Ib. specialize (Ha b Ib). pose proof (LB b a (Il b Ib) Ia) as Q. rewrite Ha in Q. unfold in_order.
    destruct d0; [congruence| |]; intros X; apply Q in X; discriminate.
  - intros x p Ix Hp. assert (G : forall l, Forall (fun r => In r (rows t)) l -> filter p l = filter (tied (less fmt key d0) x) l).
    { intros l Fl. induction Fl as [|y l Iy Fl IH]; cbn [filter]; auto. rewrite IH. assert (Q : p y = tied (less fmt key d0) x y).
      { apply eq_true_iff_eq. rewrite (Hp y Iy). unfold tied, same_value. rewrite andb_true_iff, !negb_true_iff, <- !not_true_iff_false, (LB x y Ix Iy), (LB y x Iy Ix). destruct d0; tauto. }
      rewrite Q. reflexivity. }
    rewrite !G; [apply S; auto|apply Forall_forall; auto|rewrite <- P; apply Forall_forall; auto].
Qed.
(** Clearing the sort shows the rows in the order they were given, whatever happened in between. *)
Definition keeps_rows (o : top) : Prop := match o with TRows _ => False | _ => True end.
Theorem C34_clear_restores_order : forall fmt sorter t os, Forall keeps_rows os ->
  effective (tstep fmt sorter (tsteps fmt sorter os t) TClear) = rows t.
Proof.
  intros fmt sorter t os F. cbn [tstep]. change (rows (tsteps fmt sorter os t) = rows t). revert t.
  induction F as [|o os K F IH]; intros t; [reflexivity|]. cbn [tsteps fold_left]. fold (tsteps fmt sorter os (tstep fmt sorter t o)). rewrite IH.
  destruct o; cbn [tstep]; try reflexivity; try (destruct K; fail).
  - unfold on_key. repeat match goal with |- context [if ?b then _ else _] => destruct b end; try reflexivity; try (apply up_frame); try apply down_frame.
    + unfold page_up. apply (page_up_ind (fun t' => rows t' = rows t)); auto. intros t' <-. apply up_frame.
    + unfold page_down. apply (page_down_ind (fun t' => rows t' = rows t)); auto. intros t' <-. apply down_frame.
  - unfold sort_by_column. destruct (find _ _) as [c|]; auto. destruct (sortable c); reflexivity.
Qed.
(** An unknown or unsortable column changes nothing. *)
Theorem C34_unsortable_ignored : forall fmt sorter t key,
  (forall c, find (fun c => list_eqb (ckey c) key) (columns t) = Some c -> sortable c = false) -> tstep fmt sorter t (TSort key) = t.
Proof. intros fmt sorter t key H. cbn [tstep]. unfold sort_by_column. destruct (find _ _) as [c|] eqn:E; auto. now rewrite (H c eq_refl). Qed.
(** The contract of the library sort determines the result, and an implementation meets it. *)
Theorem C34_contract_determines_result : forall s1 s2, sort_contract s1 -> sort_contract s2 -> forall fmt key d rs, uniform rs key ->
  sort_rows fmt s1 rs key d = sort_rows fmt s2 rs key d.
Proof.
  intros s1 s2 C1 C2 fmt key d rs U. pose proof (less_weak fmt rs key d U) as W. unfold sort_rows. destruct d; auto; destruct rs; auto; eapply stable_sorted_unique; eauto; try apply C1; try apply C2; auto.
Qed.
Theorem C34_contract_satisfiable : sort_contract (@isort row).
Proof. exact isort_contract. Qed.
(** With mixed types the comparison is cyclic: no order of these three rows is sorted. *)
Definition fmt1 (c : cell) : list Z := match c with CStr s => s | CInt 9 => [57] | CInt 10 => [49; 48] | _ => [] end.
Theorem C73_mixed_types_cyclic_refuted : exists a b c : cell,
  compare_ fmt1 a b < 0 /\ compare_ fmt1 b c < 0 /\ compare_ fmt1 c a < 0 /\
  forall l, Permutation [a; b; c] l -> ~ StronglySorted (fun x y => compare_ fmt1 y x <? 0 = false) l.
Proof.
  exists (CInt 9), (CInt 10), (CStr [53]). split; [reflexivity|]. split; [reflexivity|]. split; [reflexivity|].
  intros l P S. pose proof (Permutation_length P) as L. destruct l as [|x [|y [|z [|? ?]]]]; try discriminate.
  inversion S as [|? ? S1 F1]; subst. inversion S1 as [|? ? S2 F2]; subst. inversion F1 as [|? ? X1 F3]; subst. inversion F3 as [|? ? X2 _]; subst. inversion F2 as [|? ? X3 _]; subst.
  assert (I : forall w, In w [x; y; z] -> w = CInt 9 \/ w = CInt 10 \/ w = CStr [53]) by (intros w Iw; rewrite <- P in Iw; destruct Iw as [<-|[<-|[<-|[]]]]; auto).
  assert (ND : NoDup [x; y; z]) by (rewrite <- P; repeat constructor; cbn; intuition discriminate).
  inversion ND as [|? ? N1 ND1]; subst. inversion ND1 as [|? ? N2 _]; subst. cbn [In] in N1, N2.
  destruct (I x) as [Qx|[Qx|Qx]]; try (cbn; tauto); subst x; destruct (I y) as [Qy|[Qy|Qy]]; try (cbn; tauto); subst y; destruct (I z) as [Qz|[Qz|Qz]]; try (cbn; tauto); subst z; try tauto; try discriminate X1; try discriminate X2; try discriminate X3.
Qed.
(** Whatever the values, sorting loses and invents no row. *)
Theorem C291_sort_always_permutes : forall fmt sorter, sort_contract sorter -> forall cols os,
  let t := tsteps fmt sorter os (new_table cols) in Permutation (rows t) (effective t).
Proof. intros fmt sorter C cols os t. exact (proj1 (tsteps_valid fmt sorter C os _ (new_valid cols))). Qed.
Definition r2 (n : Z) (s : list Z) : row := fun k => match k with [110] => CInt n | _ => CStr s end.
Example C34_ex : let t := tsteps fmt0 (@isort row) [TRows [r2 2 [97]; r2 1 [98]; r2 2 [99]; r2 1 [100]]; TSort [110]]
    (new_table [Col [110] [] 3 ALeft true None]) in
  map (fun r => r []) (effective t) = [CStr [98]; CStr [100]; CStr [97]; CStr [99]] /\
  map (fun r => r []) (effective (tstep fmt0 (@isort row) t (TSort [110]))) = [CStr [97]; CStr [99]; CStr [98]; CStr [100]].
Proof. split; reflexivity. Qed.
Print Assumptions C34_sort_is_stable_sorted_permutation.
Print Assumptions C34_clear_restores_order.
Print Assumptions C34_contract_determines_result.

(* ---------- C69 ---------- *)
(** Navigation keys: the selection moves by the documented amount, clamped; rows and sort stay. *)
Definition sel_to (t t' : table) (i : Z) : Prop := tsel t' = i /\ effective t' = effective t /\ rows t' = rows t.
Theorem C69_navigation_keys : forall fmt sorter, sort_contract sorter -> forall cols os,
  let t := tsteps fmt sorter os (new_table cols) in let n := Z.of_nat (length (rows t)) in 0 < n ->
  let after k := tstep fmt sorter t (TKey k) in
  Forall (fun k => sel_to t (after k) (Z.max 0 (tsel t - 1))) [plain KUp; rune_key 107] /\
  Forall (fun k => sel_to t (after k) (Z.min (n - 1) (tsel t + 1))) [plain KDown; rune_key 106] /\
  sel_to t (after (plain KPgUp)) (Z.max 0 (tsel t - Z.max 0 (fits t))) /\
  sel_to t (after (plain KPgDown)) (Z.min (n - 1) (tsel t + Z.max 0 (fits t))) /\
  Forall (fun k => sel_to t (after k) 0) [plain KHome; rune_key 103] /\
  Forall (fun k => sel_to t (after k) (n - 1)) [plain KEnd; rune_key 71].
Proof.
  intros fmt sorter C cols os t n N after. pose proof (tsteps_valid fmt sorter C os _ (new_valid cols)) as V. fold t in V. pose proof (nrows_rows _ V) as L. destruct V as (A & B & D).
  fold n in L. rewrite L in D.
  assert (U : sel_to t (move_up t) (Z.max 0 (tsel t - 1))) by (split; [rewrite move_up_pos; destruct (_ <=? 0) eqn:E; lia|split; apply up_frame]).
  assert (W : sel_to t (move_down t) (Z.min (n - 1) (tsel t + 1))) by (split; [rewrite move_down_pos, L; destruct (_ <=? _) eqn:E; lia|split; apply down_frame]).
  split; [repeat constructor; apply U|]. split; [repeat constructor; apply W|]. split; [|split; [|split]].
  - change (sel_to t (page_up t) (Z.max 0 (tsel t - Z.max 0 (fits t)))). unfold page_up. split; [rewrite page_up_pos by auto; change (fits t) with (vis t); lia|].
    apply (page_up_ind (fun t' => effective t' = effective t /\ rows t' = rows t)); auto. intros t' [<- <-]. split; apply up_frame.
  - change (sel_to t (page_down t) (Z.min (n - 1) (tsel t + Z.max 0 (fits t)))). unfold page_down. split.
    + change (Z.of_nat (length (rows t))) with n. destruct (page_down_pos (Z.to_nat (vis t)) (n - 1) t) as [Q|Q]; try lia; rewrite Q; change (fits t) with (vis t); lia.
    + apply (page_down_ind (fun t' => effective t' = effective t /\ rows t' = rows t)); auto. intros t' [<- <-]. split; apply down_frame.
  - repeat constructor.
  - assert (E : sel_to t (to_end t) (n - 1)) by (split; [unfold to_end; rewrite L; cbn [tsel set_pos]; destruct (_ <? 0) eqn:E; lia|split; reflexivity]).
    repeat constructor; apply E.
Qed.
Print Assumptions C69_navigation_keys.

(* ---------- C70 ---------- *)
(** A formatted cell: the text padded with spaces on the aligned side, or cut with "..." *)
Theorem C70_cell_contents : forall text w a, 0 <= w ->
  let n := Z.of_nat (length text) in
  exists c, format_cell text w a = Some c /\ Z.of_nat (length c) = w /\
    (n <= w -> exists l r, c = repeat 32 l ++ text ++ repeat 32 r /\
       match a with ALeft => l = 0%nat | ARight => r = 0%nat | ACenter => (l <= r <= l + 1)%nat end) /\
    (w < n -> 3 < w -> c = firstn (Z.to_nat (w - 3)) text ++ [46; 46; 46]) /\
    (w < n -> w <= 3 -> c = firstn (Z.to_nat w) text).
Proof.
  intros text w a W n. destruct (format_length text w a W) as (c & E & Lc). exists c. split; auto. split; auto. unfold format_cell, spaces in E. fold n in E. split; [|split].
  - intros H. replace (w <? n) with false in E by lia. fold n in E. destruct (w - n <=? 0) eqn:Q; apply some_inj in E; subst c.
    + exists 0%nat, 0%nat. cbn. rewrite app_nil_r. split; auto. destruct a; lia.
    + destruct a.
      * exists 0%nat. eexists. split; reflexivity.
      * do 2 eexists. split; [reflexivity|]. rewrite Z.quot_div_nonneg by lia. Z.div_mod_to_equations; lia.
      * eexists. exists 0%nat. cbn. rewrite app_nil_r. split; reflexivity.
  - intros H H3. replace (w <? n) with true in E by lia. replace (3 <? w) with true in E by lia. rewrite app_length, firstn_length in E. replace (_ <=? 0) with true in E by (cbn [length]; lia). now apply some_inj in E.
  - intros H H3. replace (w <? n) with true in E by lia. replace (3 <? w) with false in E by lia. replace (w <? 0) with false in E by lia. rewrite firstn_length in E. replace (_ <=? 0) with true in E by lia. now apply some_inj in E.
Qed.
Lemma mark_len c : length (mark c) = length c. Proof. destruct c; reflexivity. Qed.
Lemma row_line_len fmt cols r b : Forall (fun c => 0 <= cwidth c) cols -> exists l, row_line fmt cols r b = Some l /\ Z.of_nat (length l) = line_len cols.
Proof.
  intros F. unfold row_line. destruct (seq_opt_map (fun c => format_cell (cell_text fmt c r) (cwidth c) (calign c)) (fun c (x : list Z) => Z.of_nat (length x) = cwidth c) cols) as (cs & E & F2).
  { intros c I. rewrite Forall_forall in F. apply format_length; auto. }
  rewrite E. eexists. split; [reflexivity|]. rewrite join_len. rewrite <- (f2_len _ _ F2). destruct cs as [|c cs]; [reflexivity|]. cbn [fold_right length]. destruct b; rewrite ?mark_len; reflexivity.
Qed.
Lemma body_len fmt cols t rs k : Forall (fun c => 0 <= cwidth c) cols ->
  exists b, seq_opt (map (fun ir => row_line fmt cols (snd ir) (tscroll t + Z.of_nat (fst ir) =? tsel t)) (combine (seq k (length rs)) rs)) = Some b /\ length b = length rs /\ Forall (fun l => Z.of_nat (length l) = line_len cols) b.
Proof.
  intros F. revert k. induction rs as [|r rs IH]; intros k; cbn [length seq combine map seq_opt]; [exists []; auto|].
  destruct (row_line_len fmt cols r (tscroll t + Z.of_nat k =? tsel t) F) as (l & E & L). cbn [snd fst]. rewrite E. destruct (IH (S k)) as (b & E2 & L2 & F2). rewrite E2. exists (l :: b). cbn [length]. repeat split; auto.
Qed.
(** All lines of the view have the same byte width: the columns plus one separator between them. *)
Theorem C70_view_rectangular : forall fmt sorter, sort_contract sorter -> forall cols os, tsane_run fmt sorter (new_table cols) os -> Forall (fun c => 0 <= cwidth c) cols ->
  let t := tsteps fmt sorter os (new_table cols) in
  exists ls, view fmt t = Some ls /\
    Z.of_nat (length ls) = (if header t then 2 else 0) + Z.max 0 (Z.min (fits t) (Z.of_nat (length (rows t)) - tscroll t)) /\
    Forall (fun l => Z.of_nat (length l) = fold_right (fun c a => cwidth c + a) 0 cols + Z.max 0 (Z.of_nat (length cols) - 1)) ls.
Proof.
  intros fmt sorter C cols os N F t. pose proof (tsteps_valid fmt sorter C os _ (new_valid cols)) as V.
  assert (S : tseen t) by (apply tsteps_seen; auto using new_valid; repeat split; cbn; lia). fold t in V.
  assert (Ec : columns t = cols).
  { unfold t. clear. assert (G : forall u, columns (tsteps fmt sorter os u) = columns u).
    { induction os as [|o os IH]; intros u; [reflexivity|]. cbn [tsteps fold_left]. fold (tsteps fmt sorter os (tstep fmt sorter u o)). rewrite IH. destruct o; cbn [tstep]; try reflexivity.
      - unfold on_key. repeat match goal with |- context [if ?b then _ else _] => destruct b end; try reflexivity; try apply up_frame; try apply down_frame.
        + unfold page_up. apply (page_up_ind (fun t' => columns t' = columns u)); auto. intros t' <-. apply up_frame.
        + unfold page_down. apply (page_down_ind (fun t' => columns t' = columns u)); auto. intros t' <-. apply down_frame.
      - unfold sort_by_column. destruct (find _ _) as [c|]; auto. destruct (sortable c); reflexivity. }
    apply G. }
  unfold view. rewrite (visible_exact _ V S), Ec. set (rs := firstn _ _).
  destruct (body_len fmt cols t rs 0 F) as (b & E & Lb & Fb). rewrite E.
  assert (Lr : Z.of_nat (length rs) = Z.max 0 (Z.min (fits t) (Z.of_nat (length (rows t)) - tscroll t))).
  { unfold rs. rewrite firstn_length, skipn_length. rewrite <- (nrows_rows _ V). unfold nrows. change (fits t) with (vis t). destruct S as (S1 & S2 & S3). lia. }
  destruct (header t) eqn:H.
  - destruct (seq_opt_map (fun c => format_cell (header_title t c) (cwidth c) (calign c)) (fun c (x : list Z) => Z.of_nat (length x) = cwidth c) cols) as (cs & E1 & F1).
    { intros c I. rewrite Forall_forall in F. apply format_length; auto. }
    destruct (seq_opt_map (fun c => if cwidth c <? 0 then None else Some (repeat 9472 (Z.to_nat (cwidth c)))) (fun c (x : list Z) => Z.of_nat (length x) = cwidth c) cols) as (cs' & E2 & F2).
    { intros c I. rewrite Forall_forall in F. specialize (F c I). replace (_ <? 0) with false by lia. eexists. split; [reflexivity|]. rewrite repeat_length. lia. }
    unfold header_line, rule_line. rewrite Ec, E1, E2. eexists. split; [reflexivity|]. cbn [length]. split; [lia|].
    constructor; [rewrite join_len; apply (f2_len _ _ F1)|]. constructor; [rewrite join_len; apply (f2_len _ _ F2)|exact Fb].
  - exists b. split; [reflexivity|]. split; [lia|exact Fb].
Qed.
(** Display columns: the sum over characters (bytes that are not UTF-8 continuations). *)
Lemma disp_ascii l : Forall (fun b => ~ (128 <= b < 192)) l -> Z.of_nat (length (filter (fun b => negb ((128 <=? b) && (b <? 192))) l)) = Z.of_nat (length l).
Proof. induction 1 as [|b l H F IH]; [reflexivity|]. cbn [filter]. replace ((128 <=? b) && (b <? 192)) with false by lia. cbn [negb length]. lia. Qed.
(** For ASCII cells the byte width is the display width. *)
Theorem C72_ascii_cells_have_their_width_partial : forall text w a, 0 <= w -> Forall (fun b => 0 <= b < 128) text ->
  exists c, format_cell text w a = Some c /\ Z.of_nat (length (filter (fun b => negb ((128 <=? b) && (b <? 192))) c)) = w.
Proof.
  intros text w a W F. destruct (C70_cell_contents text w a W) as (c & E & L & H1 & H2 & H3). exists c. split; auto. rewrite disp_ascii; auto.
  assert (Fs : forall n, Forall (fun b => ~ (128 <= b < 192)) (repeat 32 n)) by (intros n; apply Forall_forall; intros b I; apply repeat_spec in I; lia).
  assert (Ft : Forall (fun b => ~ (128 <= b < 192)) text) by (eapply Forall_impl; [|exact F]; cbn; intros; lia).
  assert (Fp : forall n, Forall (fun b => ~ (128 <= b < 192)) (firstn n text)) by (intros n; rewrite <- (firstn_skipn n text) in Ft; apply Forall_app in Ft; tauto).
  destruct (Z.le_gt_cases (Z.of_nat (length text)) w) as [K|K].
  - destruct (H1 K) as (l & r & -> & _). apply Forall_app; split; auto. apply Forall_app; split; auto.
  - destruct (Z.le_gt_cases w 3) as [K3|K3]; [rewrite H3 by lia; auto|]. rewrite H2 by lia. apply Forall_app; split; auto. repeat constructor; lia.
Qed.
(** In general it is not: the sort marker itself breaks it.  *)
Definition disp (l : list Z) : Z := Z.of_nat (length (filter (fun b => negb ((128 <=? b) && (b <? 192))) l)).
Theorem C72_sort_marker_misaligns_refuted : exists cols os ls, view fmt0 (tsteps fmt0 (@isort row) os (new_table cols)) = Some ls /\
  map disp ls = [8; 10; 10].
Proof. exists [Col [110] [78] 10 ALeft true None], [TRows [rw [48]]; TSort [110]], [[78; 32; 226; 150; 178; 32; 32; 32; 32; 32]; repeat 9472 10; [62; 32; 32; 32; 32; 32; 32; 32; 32; 32]]. split; reflexivity. Qed.
(** The view is one line taller than the height, and the mark overwrites a character of the selected row. *)
Theorem C72_view_too_tall_and_overwrites_refuted : exists cols os ls, let t := tsteps fmt0 (@isort row) os (new_table cols) in
  view fmt0 t = Some ls /\ theight t < Z.of_nat (length ls) /\ cell_text fmt0 (nth 0 cols (Col [] [] 0 ALeft false None)) (rw [48; 49]) = [48; 49] /\ nth 2 ls [] = [62; 49; 32].
Proof. exists [Col [110] [78] 3 ALeft true None], [THeight 3; TRows [rw [48; 49]; rw [49]; rw [50]]], [[78; 32; 32]; [9472; 9472; 9472]; [62; 49; 32]; [49; 32; 32]]. repeat split; reflexivity. Qed.

Print Assumptions C33_selection_always_valid. Print Assumptions C260_selection_visible. Print Assumptions C71_resize_hides_selection_refuted. Print Assumptions C71_zero_height_crashes_refuted.
Print Assumptions C34_sort_is_stable_sorted_permutation. Print Assumptions C34_clear_restores_order. Print Assumptions C34_unsortable_ignored. Print Assumptions C34_contract_determines_result.
Print Assumptions C34_contract_satisfiable. Print Assumptions C73_mixed_types_cyclic_refuted. Print Assumptions C291_sort_always_permutes. Print Assumptions C69_navigation_keys.
Print Assumptions C70_cell_contents. Print Assumptions C70_view_rectangular. Print Assumptions C72_ascii_cells_have_their_width_partial. Print Assumptions C72_sort_marker_misaligns_refuted.
Print Assumptions C72_view_too_tall_and_overwrites_refuted.
