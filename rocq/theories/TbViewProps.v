(** C34, C69, C70 continued: the exact effect of every call and key of the table, and what its view contains. *)
From Coq Require Import Permutation Sorted.
From Verif Require Import Prelude KeysModel TbModel TbSpec TbProofs TbProps.

(** What each call changes, and what it leaves alone. *)
Theorem C69_calls : forall fmt sorter t h b rs,
  (let t' := tstep fmt sorter t (THeight h) in
     theight t' = h /\ header t' = header t /\ rows t' = rows t /\ effective t' = effective t /\ skey t' = skey t /\ sdir t' = sdir t /\ tsel t' = tsel t /\ tscroll t' = tscroll t /\ columns t' = columns t) /\
  (let t' := tstep fmt sorter t (THeader b) in
     header t' = b /\ theight t' = theight t /\ rows t' = rows t /\ effective t' = effective t /\ skey t' = skey t /\ sdir t' = sdir t /\ tsel t' = tsel t /\ tscroll t' = tscroll t /\ columns t' = columns t) /\
  (let t' := tstep fmt sorter t (TRows rs) in
     rows t' = rs /\ effective t' = rs /\ sdir t' = DNone /\ tsel t' = 0 /\ tscroll t' = 0 /\ theight t' = theight t /\ header t' = header t /\ columns t' = columns t) /\
  (let t' := tstep fmt sorter t TClear in
     rows t' = rows t /\ effective t' = rows t /\ sdir t' = DNone /\ tsel t' = tsel t /\ tscroll t' = tscroll t /\ theight t' = theight t /\ header t' = header t /\ columns t' = columns t).
Proof. intros. repeat split. Qed.
(** The key c does what ClearSort does; every key but the eleven documented ones does nothing. *)
Definition table_keys : list (list Z) :=
  [[8593]; [107]; [8595]; [106]; [104; 111; 109; 101]; [103]; [101; 110; 100]; [71]; [112; 103; 117; 112]; [112; 103; 100; 111; 119; 110]; [99]].
Theorem C69_other_keys : forall fmt sorter t,
  tstep fmt sorter t (TKey (rune_key 99)) = tstep fmt sorter t TClear /\
  forall k, ~ In (key_string k) table_keys -> tstep fmt sorter t (TKey k) = t.
Proof.
  intros fmt sorter t. split; [reflexivity|]. intros k N. cbn [tstep].
  assert (G : forall names, incl names table_keys -> key_in k names = false).
  { intros names I. unfold key_in. destruct (existsb _ names) eqn:E; auto. apply existsb_exists in E as (s & Is & Es). apply list_eqb_eq in Es. exfalso. apply N. rewrite Es. auto. }
  unfold on_key. rewrite !G; auto; intros x Ix; cbn in Ix; unfold table_keys; cbn; intuition.
Qed.
(** Sorting starts ascending, toggles on the same column, is ascending again on another one, and selects the first row shown at the top. *)
Theorem C34_direction_and_position : forall fmt sorter t key c, find (fun c => list_eqb (ckey c) key) (columns t) = Some c -> sortable c = true ->
  let t' := tstep fmt sorter t (TSort key) in
  sdir t' = (if list_eqb (skey t) key then match sdir t with DAsc => DDesc | _ => DAsc end else DAsc) /\
  skey t' = key /\ tsel t' = 0 /\ tscroll t' = 0 /\ theight t' = theight t /\ header t' = header t /\ columns t' = columns t /\ rows t' = rows t.
Proof.
  intros fmt sorter t key c F S t'. unfold t'. cbn [tstep]. unfold sort_by_column. rewrite F, S. cbn. split; [|repeat split].
  destruct (sdir t), (list_eqb (skey t) key); reflexivity.
Qed.
(** Height and header are as last set, initially 10 and shown; the columns are those given. *)
Fixpoint height_set (os : list top) (h : Z) : Z := match os with [] => h | THeight x :: r => height_set r x | _ :: r => height_set r h end.
Fixpoint header_set (os : list top) (b : bool) : bool := match os with [] => b | THeader x :: r => header_set r x | _ :: r => header_set r b end.
Lemma up_loop_same n : forall t, theight (page_up_loop n t) = theight t /\ header (page_up_loop n t) = header t /\ columns (page_up_loop n t) = columns t.
Proof. induction n as [|n IH]; intros t; cbn [page_up_loop]; auto. destruct (0 <? tsel t); auto. destruct (IH (move_up t)) as (-> & -> & ->). unfold move_up. destruct (_ <=? _); auto. Qed.
Lemma down_loop_same n m : forall t, theight (page_down_loop n m t) = theight t /\ header (page_down_loop n m t) = header t /\ columns (page_down_loop n m t) = columns t.
Proof. induction n as [|n IH]; intros t; cbn [page_down_loop]; auto. destruct (tsel t <? m); auto. destruct (IH (move_down t)) as (-> & -> & ->). unfold move_down. destruct (_ <=? _); auto. Qed.
Theorem C69_settings : forall fmt sorter cols os, let t := tsteps fmt sorter os (new_table cols) in
  theight t = height_set os 10 /\ header t = header_set os true /\ columns t = cols.
Proof.
  intros fmt sorter cols os. assert (G : forall t, let t' := tsteps fmt sorter os t in theight t' = height_set os (theight t) /\ header t' = header_set os (header t) /\ columns t' = columns t).
  { induction os as [|o os IH]; intros t; cbv zeta; [auto|]. cbv zeta in IH. change (tsteps fmt sorter (o :: os) t) with (tsteps fmt sorter os (tstep fmt sorter t o)). destruct (IH (tstep fmt sorter t o)) as (-> & -> & ->).
    destruct o; cbn [height_set header_set]; auto.
    - cbn [tstep]. unfold on_key, page_up, page_down. repeat match goal with |- context [if key_in ?k ?l then _ else _] => destruct (key_in k l) end; auto;
        try (destruct (up_loop_same (Z.to_nat (vis t)) t) as (-> & -> & ->); auto; fail); try (destruct (down_loop_same (Z.to_nat (vis t)) (Z.of_nat (length (rows t)) - 1) t) as (-> & -> & ->); auto; fail);
        unfold move_up, move_down, to_start, to_end; cbv zeta; repeat match goal with |- context [if ?b then _ else _] => destruct b end; auto.
    - cbn [tstep]. unfold sort_by_column. destruct (find _ _); auto. destruct (sortable _); auto. }
  apply G.
Qed.

(** Navigation keeps the sort order, the height and the header. *)
Theorem C69_keys_keep_the_rest : forall fmt sorter t k, key_string k <> [99] ->
  let t' := tstep fmt sorter t (TKey k) in
  rows t' = rows t /\ effective t' = effective t /\ skey t' = skey t /\ sdir t' = sdir t /\ theight t' = theight t /\ header t' = header t /\ columns t' = columns t.
Proof.
  intros fmt sorter t k N t'. unfold t'. cbn [tstep]. clear t'.
  set (Q := fun t' : table => rows t' = rows t /\ effective t' = effective t /\ skey t' = skey t /\ sdir t' = sdir t /\ theight t' = theight t /\ header t' = header t /\ columns t' = columns t).
  change (Q (on_key t k)).
  assert (Q0 : Q t) by (unfold Q; repeat split).
  assert (Qs : forall u i o, Q u -> Q (set_pos u i o)) by (intros u i o (? & ? & ? & ? & ? & ? & ?); unfold Q; repeat split; auto).
  assert (Qu : forall u, Q u -> Q (move_up u)) by (intros u Hu; unfold move_up; destruct (_ <=? _); auto).
  assert (Qd : forall u, Q u -> Q (move_down u)) by (intros u Hu; unfold move_down; destruct (_ <=? _); auto).
  assert (K : key_in k [[99]] = false).
  { unfold key_in. cbn [existsb]. rewrite orb_false_r. destruct (list_eqb _ _) eqn:E; auto. apply list_eqb_eq in E. contradiction. }
  unfold on_key. rewrite K. repeat match goal with |- Q (if ?b then _ else _) => destruct b end; auto.
  - unfold page_up. apply (page_up_ind Q); auto.
  - unfold page_down. apply (page_down_ind Q); auto.
Qed.

(* ---------- the view ---------- *)
(** [c] is the text in a cell of width [w]: padded on the sides given by the alignment, or cut with an ellipsis. *)
Definition cell_of (text : list Z) (w : Z) (a : align) (c : list Z) : Prop :=
  let n := Z.of_nat (length text) in
  Z.of_nat (length c) = w /\
  (n <= w -> exists l r, c = repeat 32 l ++ text ++ repeat 32 r /\
     match a with ALeft => l = 0%nat | ARight => r = 0%nat | ACenter => (l <= r <= l + 1)%nat end) /\
  (w < n -> 3 < w -> c = firstn (Z.to_nat (w - 3)) text ++ [46; 46; 46]) /\
  (w < n -> w <= 3 -> c = firstn (Z.to_nat w) text).
(** A line made of cells separated by one character. *)
Definition line_of (sep : Z) (cells : list (list Z)) (l : list Z) : Prop :=
  l = concat (match cells with [] => [] | c :: r => c :: map (fun x => sep :: x) r end).
Definition texts_in (cols : list column) (text : column -> list Z) (cells : list (list Z)) : Prop :=
  Forall2 (fun c x => cell_of (text c) (cwidth c) (calign c) x) cols cells.
(** The heading: the title, with a marker on the sorted column only. *)
Definition heading (t : table) (c : column) : list Z :=
  if list_eqb (skey t) (ckey c) then match sdir t with DNone => title c | DAsc => title c ++ [32; 226; 150; 178] | DDesc => title c ++ [32; 226; 150; 188] end else title c.
(** What a column shows of a row: the value through the column's renderer, or printed. *)
Definition shown (fmt : cell -> list Z) (r : row) (c : column) : list Z :=
  match renderer c with Some f => f (r (ckey c)) | None => fmt (r (ckey c)) end.
(** The line of a row; the first character of the selected one is replaced by ">". *)
Definition row_shown (fmt : cell -> list Z) (cols : list column) (r : row) (is_sel : bool) (l : list Z) : Prop :=
  exists cells, texts_in cols (shown fmt r) cells /\
    line_of 9474 (if is_sel then match cells with (_ :: x) :: rest => (62 :: x) :: rest | cs => cs end else cells) l.

Lemma join_line cs sep : line_of sep cs (join_cells cs sep).
Proof.
  unfold line_of. destruct cs as [|c r]; [reflexivity|]. revert c. induction r as [|d r IH]; intros c; [cbn; now rewrite app_nil_r|].
  change (join_cells (c :: d :: r) sep) with (c ++ sep :: join_cells (d :: r) sep). rewrite IH. reflexivity.
Qed.
Lemma format_cell_of text w a : 0 <= w -> exists c, format_cell text w a = Some c /\ cell_of text w a c.
Proof. intros H. destruct (C70_cell_contents text w a H) as (c & E & R). exists c. split; [exact E|exact R]. Qed.
Lemma row_line_shown fmt cols r b : Forall (fun c => 0 <= cwidth c) cols -> exists l, row_line fmt cols r b = Some l /\ row_shown fmt cols r b l.
Proof.
  intros F. unfold row_line.
  destruct (seq_opt_map (fun c => format_cell (cell_text fmt c r) (cwidth c) (calign c)) (fun c x => cell_of (shown fmt r c) (cwidth c) (calign c) x) cols) as (cs & E & F2).
  { intros c I. rewrite Forall_forall in F. apply (format_cell_of (cell_text fmt c r)); auto. }
  rewrite E. eexists. split; [reflexivity|]. exists cs. split; [exact F2|].
  destruct b.
  - destruct cs as [|[|z c] cs]; apply join_line.
  - destruct cs as [|c cs]; apply join_line.
Qed.
Lemma body_shown fmt cols t rs k : Forall (fun c => 0 <= cwidth c) cols ->
  exists b, seq_opt (map (fun ir => row_line fmt cols (snd ir) (tscroll t + Z.of_nat (fst ir) =? tsel t)) (combine (seq k (length rs)) rs)) = Some b /\ length b = length rs /\
    forall i r, nth_error rs i = Some r -> exists l, nth_error b i = Some l /\ row_shown fmt cols r (tscroll t + Z.of_nat (k + i) =? tsel t) l.
Proof.
  intros F. revert k. induction rs as [|r rs IH]; intros k; cbn [length seq combine map seq_opt].
  { exists []. split; [reflexivity|]. split; [reflexivity|]. intros [|i] r E; discriminate. }
  destruct (row_line_shown fmt cols r (tscroll t + Z.of_nat k =? tsel t) F) as (l & E & L). cbn [snd fst]. rewrite E. destruct (IH (S k)) as (b & E2 & L2 & F2). rewrite E2.
  exists (l :: b). split; [reflexivity|]. split; [cbn; now rewrite L2|]. intros [|i] r' Er.
  - cbn in Er. apply some_inj in Er. subst r'. exists l. split; [reflexivity|]. now rewrite Nat.add_0_r.
  - cbn in Er. destruct (F2 i r' Er) as (l' & El & Rl). exists l'. split; [exact El|]. now rewrite Nat.add_succ_r.
Qed.
(** The view: with a header, the headings and a rule; then one line for each visible row from the scroll offset on, showing the row's
    cells in column order, with the mark on the line of the selected row and on no other. *)
Theorem C70_view_shows_the_rows : forall fmt sorter, sort_contract sorter -> forall cols os, tsane_run fmt sorter (new_table cols) os -> Forall (fun c => 0 <= cwidth c) cols ->
  let t := tsteps fmt sorter os (new_table cols) in
  exists top body, view fmt t = Some (top ++ body) /\
    (if header t then exists h heads u rules, top = [h; u] /\ texts_in cols (heading t) heads /\ line_of 9474 heads h /\
       Forall2 (fun c x => x = repeat 9472 (Z.to_nat (cwidth c))) cols rules /\ line_of 9532 rules u else top = []) /\
    Z.of_nat (length body) = Z.max 0 (Z.min (fits t) (Z.of_nat (length (rows t)) - tscroll t)) /\
    forall i, (i < length body)%nat -> exists r l, nth_error (effective t) (Z.to_nat (tscroll t) + i) = Some r /\ nth_error body i = Some l /\
      row_shown fmt cols r (tscroll t + Z.of_nat i =? tsel t) l.
Proof.
  intros fmt sorter C cols os N F t. pose proof (tsteps_valid fmt sorter C os _ (new_valid cols)) as V.
  assert (S : tseen t) by (apply tsteps_seen; auto using new_valid; repeat split; cbn; lia). fold t in V.
  assert (Ec : columns t = cols).
  { unfold t. clear. assert (G : forall u, columns (tsteps fmt sorter os u) = columns u).
    { induction os as [|o os IH]; intros u; [reflexivity|]. cbn [tsteps fold_left]. fold (tsteps fmt sorter os (tstep fmt sorter u o)). rewrite IH. destruct o; cbn [tstep]; try reflexivity.
      - unfold on_key. repeat match goal with |- context [if ?b then _ else _] => destruct b end; try reflexivity; try apply up_frame; try apply down_frame.
        + unfold page_up. apply (page_up_ind (fun t' => columns t' = columns u)); auto. intros t' <-. apply up_frame.
        + unfold page_down. apply (page_down_ind (fun t' => columns t' = columns u)); auto. intros t' <-. apply down_frame.
      - unfold sort_by_column. destruct (find _ _) as [c|]; auto. destruct (sortable c); reflexivity. }
    apply G. }
  assert (Ev := visible_exact _ V S). unfold view. rewrite Ev, Ec. set (rs := firstn _ _).
  destruct (body_shown fmt cols t rs 0 F) as (b & E & Lb & Fb). rewrite E.
  assert (Lr : Z.of_nat (length rs) = Z.max 0 (Z.min (fits t) (Z.of_nat (length (rows t)) - tscroll t))).
  { unfold rs. rewrite firstn_length, skipn_length. rewrite <- (nrows_rows _ V). unfold nrows. change (fits t) with (vis t). destruct S as (S1 & S2 & S3). lia. }
  assert (B : forall i, (i < length b)%nat -> exists r l, nth_error (effective t) (Z.to_nat (tscroll t) + i) = Some r /\ nth_error b i = Some l /\ row_shown fmt cols r (tscroll t + Z.of_nat i =? tsel t) l).
  { intros i H. rewrite Lb in H. destruct (nth_error rs i) as [r|] eqn:R; [|apply nth_error_None in R; lia].
    destruct (Fb i r R) as (l & El & Rl). exists r, l. split; [|split; auto].
    assert (K : forall (B : Type) n i (l : list B), nth_error (skipn n l) i = nth_error l (n + i)).
    { intros T0 n. induction n as [|n IH]; intros i0 l0; [reflexivity|]. destruct l0; [destruct i0; reflexivity|]. cbn. apply IH. }
    rewrite <- K. unfold rs in R. rewrite <- (firstn_skipn (Z.to_nat (vis t)) (skipn (Z.to_nat (tscroll t)) (effective t))). rewrite nth_error_app1; [exact R|].
    apply nth_error_Some. unfold row in *. rewrite R. discriminate. }
  destruct (header t) eqn:H.
  - destruct (seq_opt_map (fun c => format_cell (header_title t c) (cwidth c) (calign c)) (fun c x => cell_of (heading t c) (cwidth c) (calign c) x) cols) as (cs & E1 & F1).
    { intros c I. rewrite Forall_forall in F. destruct (format_cell_of (header_title t c) (cwidth c) (calign c)) as (x & Ex & Rx); auto. exists x. split; [exact Ex|].
      replace (heading t c) with (header_title t c); [exact Rx|]. unfold header_title, heading. destruct (sdir t), (list_eqb (skey t) (ckey c)); reflexivity. }
    destruct (seq_opt_map (fun c => if cwidth c <? 0 then None else Some (repeat 9472 (Z.to_nat (cwidth c)))) (fun c x => x = repeat 9472 (Z.to_nat (cwidth c))) cols) as (cs' & E2 & F2).
    { intros c I. rewrite Forall_forall in F. specialize (F c I). replace (_ <? 0) with false by lia. eexists. split; reflexivity. }
    unfold header_line, rule_line. rewrite Ec, E1, E2. exists [join_cells cs 9474; join_cells cs' 9532], b. split; [reflexivity|]. split; [|split; [lia|exact B]].
    exists (join_cells cs 9474), cs, (join_cells cs' 9532), cs'. split; [reflexivity|]. split; [exact F1|]. split; [apply join_line|]. split; [exact F2|apply join_line].
  - exists [], b. split; [reflexivity|]. split; [reflexivity|]. split; [lia|exact B].
Qed.
Definition two_cols := [Col [110] [78] 3 ARight true None; Col [115] [83] 3 ACenter false (Some (fun c => match c with CInt z => [z; z] | _ => [33] end))].
Definition rz (z : Z) : row := fun k => match k with [110] => CStr [z] | _ => CInt z end.
Example C70_view_ex : tsane_run fmt0 (@isort row) (new_table two_cols) [TRows [rz 50; rz 49]; TSort [110]; TKey (plain KDown)] /\
  view fmt0 (tsteps fmt0 (@isort row) [TRows [rz 50; rz 49]; TSort [110]; TKey (plain KDown)] (new_table two_cols)) =
    Some [[78; 32; 226; 9474; 32; 83; 32]; [9472; 9472; 9472; 9532; 9472; 9472; 9472]; [32; 32; 49; 9474; 49; 49; 32]; [62; 32; 50; 9474; 50; 50; 32]].
Proof. split; [repeat split|reflexivity]. Qed.
(** The documented sort keys: the key bindings name s and Enter "Toggle sort on current column". *)
Theorem C168_sort_keys_do_nothing_refuted : forall fmt sorter t, tstep fmt sorter t (TKey (rune_key 115)) = t /\ tstep fmt sorter t (TKey (plain KEnter)) = t.
Proof. intros. split; reflexivity. Qed.

Print Assumptions C69_calls. Print Assumptions C69_other_keys. Print Assumptions C34_direction_and_position. Print Assumptions C69_settings.
Print Assumptions C69_keys_keep_the_rest. Print Assumptions C70_view_shows_the_rows. Print Assumptions C168_sort_keys_do_nothing_refuted.
