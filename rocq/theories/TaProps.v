(** C21-C26, C61, C62: the text area. *)
From Verif Require Import Prelude TaModel TaSpec TaProofs.

(** A sample area: "ab" newline "cd e", cursor on row 1 between c and d. *)
Definition sample : ta := apply_all [OSetValue [97; 98; 10; 99; 100; 32; 101]; OSetCursor 1 1] new_ta.
Example sample_ok : valid sample /\ tidy sample /\ read_only (conf sample) = false /\ validator (conf sample) = None /\
  before sample = [97; 98; 10; 99] /\ after sample = [100; 32; 101].
Proof.
  destruct (apply_all_keeps [OSetValue [97; 98; 10; 99; 100; 32; 101]; OSetCursor 1 1] new_ta new_valid) as [A B].
  split; [exact A|]. split; [apply B; repeat constructor; cbn; auto|]. repeat split; reflexivity.
Qed.

(* ---------- C21 ---------- *)
(** After any history the buffer has a line and the cursor is inside the text. *)
Theorem C21_cursor_always_in_text : forall os, let t := apply_all os new_ta in
  (1 <= length (buf t))%nat /\ (row t < length (buf t))%nat /\ (col t <= length (nth (row t) (buf t) []))%nat.
Proof. intros os t. destruct (apply_all_keeps os new_ta new_valid) as [[A B C] _]. fold t in A, B. repeat split; auto; lia. Qed.
(** The same from any valid state (so validity is an invariant, kept by each call). *)
Theorem C21_validity_is_invariant : forall os t, valid t -> valid (apply_all os t).
Proof. intros os t H. apply apply_all_keeps; auto. Qed.
(** The lines are the lines of Value(): no line ever contains a newline, provided no raw newline
    rune is typed (the Enter key is a different key). *)
Theorem C21_lines_are_the_lines_of_value : forall os, Forall proper os -> let t := apply_all os new_ta in
  Forall (fun l => ~ In nl l) (buf t) /\ buf t = split_lines (value t).
Proof.
  intros os F t. destruct (apply_all_keeps os new_ta new_valid) as [A B]. fold t in A, B.
  assert (T : tidy t) by (apply B; auto; repeat constructor; cbn; auto).
  split; [exact T|]. unfold value. rewrite split_join; auto. destruct A as [A _ _]. destruct (buf t); [cbn in A; lia|discriminate].
Qed.
(** SetValue then Value gives the text back, whatever the state was. *)
Theorem C21_set_value_reads_back : forall t s, value (apply (OSetValue s) t) = s.
Proof. intros t s. apply join_split. Qed.
Example C21_ex : let t := apply_all [OKey (plain (KRune 97)); OKey (plain KEnter); OKey (plain (KRune 98)); OSetCursor 7 (-3); OKey (plain KBackspace)] new_ta in
  value t = [97; 98] /\ row t = 0%nat /\ col t = 1%nat.
Proof. repeat split; reflexivity. Qed.
Print Assumptions C21_cursor_always_in_text.
Print Assumptions C21_lines_are_the_lines_of_value.

(* ---------- C22 ---------- *)
(** Value() is what is before the cursor followed by what is after it, and (for tidy text) that
    pair determines the lines and the cursor: so the statements below pin the whole state down. *)
Theorem C22_text_is_before_and_after : forall t, valid t -> value t = before t ++ after t.
Proof. exact value_split. Qed.
Theorem C22_document_determines_state : forall t, valid t -> tidy t ->
  buf t = split_lines (before t ++ after t) /\ row t = count_occ Z.eq_dec (before t) nl /\ col t = length (since_newline (before t)).
Proof. exact faithful. Qed.
Theorem C22_typing_inserts_at_cursor : forall t ch, valid t -> read_only (conf t) = false ->
  let t' := fst (handle (plain (KRune ch)) t) in
  before t' = before t ++ [ch] /\ after t' = after t /\ kring t' = kring t /\ conf t' = conf t.
Proof.
  intros t ch H Ro t'. destruct (doc_type t ch H Ro). repeat split; auto; subst t'; rewrite plain_char; unfold type_char; rewrite Ro; reflexivity.
Qed.
Theorem C22_space_inserts_at_cursor : forall t, valid t -> read_only (conf t) = false ->
  let t' := fst (handle (plain KSpace) t) in before t' = before t ++ [32] /\ after t' = after t.
Proof. intros t H Ro t'. destruct (doc_type t 32 H Ro). auto. Qed.
Theorem C22_enter_splits_line : forall t, valid t -> read_only (conf t) = false ->
  (max_lines (conf t) <= 0 \/ Z.of_nat (length (buf t)) < max_lines (conf t)) ->
  let t' := fst (handle (plain KEnter) t) in before t' = before t ++ [nl] /\ after t' = after t.
Proof. intros t H Ro Hm t'. destruct (doc_newline t H Ro Hm). auto. Qed.
Theorem C22_backspace_removes_one_before : forall t, valid t -> read_only (conf t) = false -> validator (conf t) = None ->
  let t' := fst (handle (plain KBackspace) t) in
  (before t = [] /\ t' = t) \/ (exists c, before t = before t' ++ [c] /\ after t' = after t).
Proof. intros t H Ro Hv. exact (doc_backspace t H Ro Hv). Qed.
Theorem C22_delete_removes_one_after : forall t, valid t -> read_only (conf t) = false ->
  let t' := fst (handle (plain KDelete) t) in
  (after t = [] /\ t' = t) \/ (exists c, after t = c :: after t' /\ before t' = before t).
Proof. intros t H Ro. exact (doc_delete t H Ro). Qed.
Theorem C22_backspace_undoes_typing : forall t k, valid t -> read_only (conf t) = false -> validator (conf t) = None ->
  (exists ch, k = KRune ch) \/ k = KSpace \/ (k = KEnter /\ (max_lines (conf t) <= 0 \/ Z.of_nat (length (buf t)) < max_lines (conf t))) ->
  let t' := fst (handle (plain KBackspace) (fst (handle (plain k) t))) in
  buf t' = buf t /\ row t' = row t /\ col t' = col t.
Proof.
  intros t k H Ro Hv [[ch ->]|[->|[-> Hm]]].
  - exact (type_undo t ch H Ro Hv).
  - exact (type_undo t 32 H Ro Hv).
  - exact (newline_undo t H Ro Hv Hm).
Qed.
(** ContentParts: the three parts are the current line, split at the cursor (a blank stands for
    the cursor past the end). *)
Theorem C22_content_parts_are_the_line : forall t, valid t ->
  let '(a, b, c) := content_parts t in
  a = firstn (col t) (nth (row t) (buf t) []) /\
  (if (col t =? length (nth (row t) (buf t) []))%nat then b = [32] /\ c = [] else a ++ b ++ c = nth (row t) (buf t) [] /\ length b = 1%nat).
Proof.
  intros t H. destruct (valid_at t H) as (P & l1 & l2 & Q & A). unfold content_parts. rewrite (cur_line_at _ _ _ _ _ A).
  destruct A as (E & R & C). rewrite E, R, C, nth_at, app_length, firstn_at.
  destruct l2 as [|x l2]; cbn [length].
  - rewrite !Nat.add_0_r, app_nil_r, Nat.leb_refl, Nat.eqb_refl. auto.
  - replace (length l1 + S (length l2) <=? length l1)%nat with false by (symmetry; apply Nat.leb_gt; lia).
    replace (length l1 =? length l1 + S (length l2))%nat with false by (symmetry; apply Nat.eqb_neq; lia).
    rewrite skipn_at. change (firstn 1 (x :: l2)) with [x]. rewrite skipn_S_at. auto.
Qed.
Example C22_ex : before (fst (handle (plain (KRune 120)) sample)) = [97; 98; 10; 99; 120]
  /\ value (fst (handle (plain KBackspace) (apply (OSetCursor 1 0) sample))) = [97; 98; 99; 100; 32; 101].
Proof. split; reflexivity. Qed.
Print Assumptions C22_backspace_undoes_typing.
Print Assumptions C22_document_determines_state.

(* ---------- C23 ---------- *)
(** Full statement: killing (to the line end, a word forward, a word backward) removes exactly
    that text, makes it the newest kill, leaves the cursor in place, and an immediate yank
    restores text and cursor.  It holds for the word before the cursor; for the two forward
    kills everything holds except that the cursor jumps to the start of the buffer, so yank
    does not restore (the refutations). *)
Theorem C23_kill_word_backward_and_yank : forall t, valid t -> tidy t -> read_only (conf t) = false -> since_newline (before t) <> [] ->
  let t' := fst (handle (ctrl 119) t) in
  let t'' := fst (handle (ctrl 121) t') in
  (exists w s, w <> [] /\ before t = before t' ++ w ++ s /\ after t' = after t /\ all_sep s /\
    (all_word w \/ (since_newline (before t') = [] /\ exists c, w = [c])) /\
    (since_newline (before t') <> [] -> exists d y, before t' = d ++ [y] /\ boundary y = true) /\
    yank_text (kring t') = w ++ s) /\
  buf t'' = buf t /\ row t'' = row t /\ col t'' = col t.
Proof.
  intros t H T Ro Hn t'. destruct (doc_kill_back t H T Ro Hn) as (w & s & Hw & B & A & S & W & Ba & K & V' & T' & Cf).
  assert (Et : kill_word_backward t = t') by reflexivity. cbv zeta in B, A, W, Ba, K, V', T', Cf. rewrite Et in *. clearbody t'.
  assert (Y : yank_text (kring t') = w ++ s) by (rewrite K; apply kill_yank; destruct w; [congruence|discriminate]).
  intros t''. split; [exists w, s; repeat split; auto|].
  assert (Ro' : read_only (conf t') = false) by (rewrite Cf; auto).
  destruct (doc_yank t' V' Ro') as [B2 A2]. rewrite Y in B2.
  destruct (yank_keeps t' V') as [V2 T2].
  apply doc_same; auto.
  - change t'' with (yank t'). rewrite B2, B. auto.
  - change t'' with (yank t'). rewrite A2, A. auto.
Qed.
Theorem C23_kill_line_text : forall t, valid t -> tidy t -> read_only (conf t) = false -> after t <> [] ->
  let t' := fst (handle (ctrl 107) t) in
  exists k rest, after t = k ++ rest /\
    (match to_newline (after t) with [] => k = [nl] | l => k = l end) /\
    value t' = before t ++ rest /\ yank_text (kring t') = k.
Proof.
  intros t H T Ro Hn t'. destruct (doc_kill_line t H T Ro Hn) as (k & rest & E & Hk & D & V & K & _).
  exists k, rest. fold t' in V, K. repeat split; auto. rewrite <- (kill_yank (kring t) k Hk). f_equal. exact K.
Qed.
Theorem C23_kill_word_text : forall t, valid t -> tidy t -> read_only (conf t) = false ->
  let t' := fst (handle (alt 100) t) in
  exists d rest, after t = d ++ rest /\ all_word d /\ ~ In nl d /\
    match rest with [] => True | c :: _ => boundary c = true \/ c = nl end /\
    value t' = before t ++ rest /\ (d = [] -> t' = t) /\ (d <> [] -> yank_text (kring t') = d).
Proof.
  intros t H T Ro t'. destruct (doc_kill_word t H T Ro) as (d & rest & E & W & N & R & V & Z0 & K).
  exists d, rest. repeat split; auto. intros Hd. destruct (K Hd) as [K1 _]. rewrite <- (kill_yank (kring t) d Hd). f_equal. exact K1.
Qed.
(** Whatever the position, a forward kill that removes something puts the cursor at row 0, column 0. *)
Theorem C158_forward_kill_moves_cursor_refuted : forall t, valid t -> tidy t -> read_only (conf t) = false -> after t <> [] ->
  row (fst (handle (ctrl 107) t)) = 0%nat /\ col (fst (handle (ctrl 107) t)) = 0%nat.
Proof. intros t H T Ro Hn. destruct (doc_kill_line t H T Ro Hn) as (k & rest & _ & _ & _ & _ & _ & R & C). auto. Qed.
Theorem C158_kill_line_then_yank_restores_refuted :
  exists t, valid t /\ tidy t /\ read_only (conf t) = false /\
    value (fst (handle (ctrl 121) (fst (handle (ctrl 107) t)))) <> value t.
Proof. exists sample. destruct sample_ok as (A & B & C & _). repeat split; auto; try apply A. vm_compute. discriminate. Qed.
(** Ctrl-U is documented as killing from the start of the line to the cursor; it kills the whole line. *)
Theorem C159_ctrl_u_kills_to_cursor_refuted :
  exists t, valid t /\ tidy t /\ read_only (conf t) = false /\ validator (conf t) = None /\
    after t = [100; 32; 101] /\ yank_text (kring (fst (handle (ctrl 117) t))) = [99; 100; 32; 101].
Proof. exists sample. destruct sample_ok as (A & B & C & D & _). repeat split; auto; apply A. Qed.
Example C23_ex : since_newline (before sample) = [99] /\ value (fst (handle (ctrl 119) sample)) = [97; 98; 10; 100; 32; 101].
Proof. split; reflexivity. Qed.
Print Assumptions C23_kill_word_backward_and_yank.
Print Assumptions C23_kill_line_text.
Print Assumptions C158_kill_line_then_yank_restores_refuted.

(* ---------- C24 ---------- *)
(** After any kills the ring holds the last [capacity] non-empty ones, oldest first. *)
Theorem C24_ring_holds_last_kills : forall m ts,
  let cap := if m <=? 0 then 10%nat else Z.to_nat m in
  let all := filter (fun t => negb (match t with [] => true | _ => false end)) ts in
  items (fold_left kill ts (new_ring m)) = skipn (length all - cap) all.
Proof.
  intros m ts cap all. pose proof (kills_items ts (new_ring m) []) as H. cbn [rmax new_ring items app] in H.
  unfold lastn in H. rewrite H; auto.
  - replace (filter nonempty ts) with all; [reflexivity|]. subst all. apply filter_ext. intros [|]; reflexivity.
  - destruct (m <=? 0) eqn:E; lia.
Qed.
Theorem C24_ring_never_exceeds_capacity : forall os, let k := kring (apply_all os new_ta) in (length (items k) <= rmax k)%nat.
Proof. intros os k. destruct (apply_all_keeps os new_ta new_valid) as [[_ _ C] _]. apply C. Qed.
Theorem C24_latest_kill_is_yanked : forall k t, t <> [] -> yank_text (kill k t) = t.
Proof. exact kill_yank. Qed.
(** Popping changes nothing but the choice, and every stored kill is reached in fewer pops than there are kills. *)
Theorem C24_pop_reaches_every_kill : forall k x, (ridx k < length (items k))%nat -> In x (items k) ->
  exists n, (n < length (items k))%nat /\ yank_text (Nat.iter n yank_pop k) = x /\ items (Nat.iter n yank_pop k) = items k.
Proof.
  intros k x H Hx. apply (In_nth _ _ []) in Hx as (i & Hi & E). destruct (pops_cycle k i H Hi) as (n & Hn & En).
  exists n. split; auto. rewrite pops_items. split; auto. unfold yank_text. now rewrite pops_items, En.
Qed.
(** The hypothesis always holds once something has been killed. *)
Theorem C24_choice_is_valid_after_a_kill : forall k t, t <> [] -> (ridx (kill k t) < length (items (kill k t)))%nat.
Proof. intros k t H. apply kill_idx. auto. Qed.
Example C24_ex : items (fold_left kill [[1]; []; [2]; [3]] (new_ring 2)) = [[2]; [3]]
  /\ yank_text (yank_pop (fold_left kill [[1]; []; [2]; [3]] (new_ring 2))) = [2].
Proof. split; reflexivity. Qed.
Print Assumptions C24_ring_holds_last_kills.
Print Assumptions C24_pop_reaches_every_kill.

(* ---------- C25 ---------- *)
(** Read-only: no sequence of keys changes the text (or the kill ring). *)
Theorem C25_read_only_blocks_all_keys : forall ks t, valid t -> read_only (conf t) = true ->
  let t' := apply_all (map OKey ks) t in value t' = value t /\ buf t' = buf t /\ items (kring t') = items (kring t).
Proof. intros ks t H Ro t'. destruct (read_only_all ks t Ro H) as [A B]. fold (keys ks t) in t'. subst t'. unfold value. rewrite A, B. auto. Qed.
(** Line limit: keeps holding under every key except yank (Ctrl-Y). *)
Theorem C25_max_lines_kept_except_yank : forall ks t, valid t -> 0 < max_lines (conf t) ->
  Forall (fun k => is_ctrl_in [121] k = false) ks -> Z.of_nat (length (buf t)) <= max_lines (conf t) ->
  Z.of_nat (length (buf (apply_all (map OKey ks) t))) <= max_lines (conf t).
Proof. intros ks t H Hm F L. exact (max_lines_all ks t Hm H F L). Qed.
(** Missing: yank inserts its newlines without looking at the limit, ... *)
Theorem C160_yank_exceeds_max_lines_refuted : exists os, let t := apply_all os new_ta in
  0 < max_lines (conf t) /\ Z.of_nat (length (buf t)) <= max_lines (conf t) /\
  Z.of_nat (length (buf (apply (OKey (ctrl 121)) t))) > max_lines (conf t).
Proof.
  exists [OSetValue [97; 10; 98]; OMaxLines 2; OSetCursor 0 1; OKey (ctrl 107); OKey (ctrl 121)]. vm_compute. repeat split; congruence.
Qed.
(** ... and the character limit is never consulted. *)
Theorem C161_max_chars_ignored_refuted : forall n s, exists os,
  let t := apply_all os (apply (OMaxChars n) new_ta) in max_chars (conf t) = n /\ value t = s /\ Forall (fun o => exists c, o = OKey (plain c)) os.
Proof.
  intros n s. exists (map (fun c => OKey (plain (if c =? nl then KEnter else KRune c))) s).
  assert (G : forall t, valid t -> max_chars (conf t) = n -> read_only (conf t) = false -> max_lines (conf t) = 0 ->
    let t' := apply_all (map (fun c => OKey (plain (if c =? nl then KEnter else KRune c))) s) t in
    max_chars (conf t') = n /\ before t' = before t ++ s /\ after t' = after t /\ valid t').
  { induction s as [|c s IH]; intros t Hv Hc Ro Hm; [cbn; rewrite app_nil_r; auto|]. cbn [map]. unfold apply_all in *. cbn [fold_left apply].
    set (t1 := fst (handle (plain (if c =? nl then KEnter else KRune c)) t)).
    assert (D : before t1 = before t ++ [c] /\ after t1 = after t).
    { subst t1. destruct (c =? nl) eqn:E; [apply Z.eqb_eq in E; subst c; apply (doc_newline t); auto; lia|apply (doc_type t); auto]. }
    destruct D as [D1 D2]. assert (V1 : valid t1) by (apply handle_keeps; auto).
    assert (C1 : conf t1 = conf t) by apply handle_conf.
    destruct (IH t1) as (X1 & X2 & X3 & X4); rewrite ?C1; auto. split; [exact X1|]. rewrite X2, X3, D1, D2, <- app_assoc. auto. }
  destruct (G (apply (OMaxChars n) new_ta)) as (X1 & X2 & X3 & X4); auto; [apply set_cfg_valid, new_valid|].
  split; [exact X1|]. split; [rewrite value_split by auto; rewrite X2, X3; cbn; now rewrite app_nil_r|].
  apply Forall_forall. intros o Ho. apply in_map_iff in Ho as (c & <- & _). eauto.
Qed.
Print Assumptions C25_read_only_blocks_all_keys.
Print Assumptions C25_max_lines_kept_except_yank.
Print Assumptions C161_max_chars_ignored_refuted.

(* ---------- C26 ---------- *)
(** Movement keys never change the text, the kills or the settings, and end inside the text. *)
Theorem C26_motion_keys_keep_text : forall k t, valid t -> motion k = true -> let t' := fst (handle k t) in
  buf t' = buf t /\ kring t' = kring t /\ conf t' = conf t /\
  (row t' < length (buf t))%nat /\ (col t' <= length (nth (row t') (buf t) []))%nat.
Proof.
  intros k t H M t'. destruct (motions_moved t _ H (motion_handle k t M)) as (A & B & C & D1 & D2). auto.
Qed.
(** Left and right walk one character through the text. *)
Theorem C26_left_one_character : forall t, valid t -> validator (conf t) = None ->
  let t' := fst (handle (plain KLeft) t) in
  (before t = [] /\ t' = t) \/ (exists c, before t = before t' ++ [c] /\ after t' = c :: after t).
Proof. intros t H Hv. exact (doc_left t H Hv). Qed.
Theorem C26_right_one_character : forall t, valid t -> validator (conf t) = None ->
  let t' := fst (handle (plain KRight) t) in
  (after t = [] /\ t' = t) \/ (exists c, after t = c :: after t' /\ before t' = before t ++ [c]).
Proof. intros t H Hv. exact (doc_right t H Hv). Qed.
Theorem C26_left_right_inverse : forall t, valid t -> validator (conf t) = None ->
  (before t <> [] -> let t' := fst (handle (plain KRight) (fst (handle (plain KLeft) t))) in buf t' = buf t /\ row t' = row t /\ col t' = col t) /\
  (after t <> [] -> let t' := fst (handle (plain KLeft) (fst (handle (plain KRight) t))) in buf t' = buf t /\ row t' = row t /\ col t' = col t).
Proof. intros t H Hv. split; intros Hn; [exact (left_right_id t H Hv Hn)|exact (right_left_id t H Hv Hn)]. Qed.
(** Up and down change the row by one and clamp the column to the line. *)
Theorem C26_up_down_clamp_column : forall t, valid t -> validator (conf t) = None ->
  (let t' := fst (handle (plain KUp) t) in
   (row t = 0%nat /\ t' = t) \/
   (S (row t') = row t /\ col t' = Nat.min (col t) (length (nth (row t') (buf t) [])))) /\
  (let t' := fst (handle (plain KDown) t) in
   (S (row t) = length (buf t) /\ t' = t) \/
   (row t' = S (row t) /\ col t' = Nat.min (col t) (length (nth (row t') (buf t) [])))).
Proof.
  intros t H Hv. pose proof H as [H1 _ _]. split; intros t'; subst t'.
  - change (fst (handle (plain KUp) t)) with (fst (move_up t)). unfold move_up, edge, go. rewrite Hv.
    destruct (row t) eqn:R; [left; auto|right]. rewrite allowed_none by auto. auto.
  - change (fst (handle (plain KDown) t)) with (fst (move_down t)). unfold move_down, edge, go. rewrite Hv, ?allowed_none by auto.
    destruct (_ <=? _)%nat eqn:E; [left; split; [apply Nat.leb_le in E; lia|auto]|right; auto].
Qed.
(** Home, End, Alt-< and Alt-> go where they say. *)
Theorem C26_line_and_buffer_ends : forall t, valid t -> validator (conf t) = None ->
  let home := fst (handle (plain KHome) t) in let end_ := fst (handle (plain KEnd) t) in
  let top := fst (handle (alt 60) t) in let bottom := fst (handle (alt 62) t) in
  (row home = row t /\ col home = 0%nat) /\ (row end_ = row t /\ col end_ = length (nth (row t) (buf t) [])) /\
  before top = [] /\ after bottom = [].
Proof.
  intros t H Hv. pose proof H as [H1 _ _].
  assert (M : forall r c, row (fst (move_cursor t r c)) = r /\ col (fst (move_cursor t r c)) = c /\ buf (fst (move_cursor t r c)) = buf t).
  { intros r c. destruct (move_cursor_none t r c Hv) as [A B]. repeat split; auto. unfold move_cursor, go. destruct (_ && _); auto. destruct (allowed _ _ _); auto. }
  split; [|split; [|split]].
  - change (fst (handle (plain KHome) t)) with (fst (move_line_start t)). unfold move_line_start. rewrite Hv. destruct (M (row t) 0%nat) as (A & B & _). auto.
  - change (fst (handle (plain KEnd) t)) with (fst (move_line_end t)). unfold move_line_end. destruct (M (row t) (length (cur_line t))) as (A & B & _). auto.
  - change (fst (handle (alt 60) t)) with (fst (move_buffer_start t)). unfold move_buffer_start, before. destruct (M 0%nat 0%nat) as (A & B & C). rewrite A, B. reflexivity.
  - change (fst (handle (alt 62) t)) with (fst (move_buffer_end t)). unfold move_buffer_end, after.
    destruct (M (length (buf t) - 1)%nat (length (get_line (buf t) (length (buf t) - 1)))) as (A & B & C). cbv zeta. rewrite A, B, C. unfold get_line.
    rewrite skipn_all, skipn_all2 by lia. reflexivity.
Qed.
(** Word motions pass one word: forward over the rest of the word and the separators after it,
    backward over separators and the word before them (they never leave the line). *)
Theorem C26_forward_word : forall t, valid t -> tidy t -> validator (conf t) = None ->
  let t' := fst (handle (alt 102) t) in
  exists d s r, after t = d ++ s ++ r /\ all_word d /\ all_sep s /\ ~ In nl (d ++ s) /\
    match s ++ r with [] => True | c :: _ => boundary c = true \/ c = nl end /\
    match r with [] => True | c :: _ => boundary c = false end /\
    before t' = before t ++ d ++ s /\ after t' = r.
Proof. intros t H T Hv. exact (doc_forward_word t H T Hv). Qed.
Theorem C26_backward_word : forall t, valid t -> tidy t -> validator (conf t) = None -> since_newline (before t) <> [] ->
  let t' := fst (handle (alt 98) t) in
  exists w s, w <> [] /\ before t = before t' ++ w ++ s /\ after t' = w ++ s ++ after t /\ all_sep s /\
    (all_word w \/ (since_newline (before t') = [] /\ exists c, w = [c])) /\
    (since_newline (before t') <> [] -> exists d y, before t' = d ++ [y] /\ boundary y = true).
Proof. intros t H T Hv Hn. exact (doc_backward_word t H T Hv Hn). Qed.
(** After a key that moves the cursor, the cursor is inside the visible window. *)
Theorem C26_cursor_visible_after_motion : forall k t, valid t -> motion k = true -> 1 <= height (conf t) -> 1 <= width (conf t) ->
  let t' := fst (handle k t) in (row t' = row t /\ col t' = col t) \/ cursor_visible t'.
Proof.
  intros k t H M Hh Hw t'. destruct (motions_stepped t _ (motion_handle k t M)) as [[E _]|(r & c & E & _)]; fold t' in E; rewrite E; [left; auto|right].
  apply with_cursor_visible; auto.
Qed.
(** So visibility, once there, is kept by every movement key. *)
Theorem C26_visibility_kept_by_motions : forall ks t, valid t -> Forall (fun k => motion k = true) ks -> 1 <= height (conf t) -> 1 <= width (conf t) ->
  cursor_visible t -> cursor_visible (apply_all (map OKey ks) t).
Proof.
  induction ks as [|k ks IH]; intros t H F Hh Hw V; [exact V|]. inversion F; subst. change (cursor_visible (apply_all (map OKey ks) (fst (handle k t)))).
  apply IH; rewrite ?handle_conf; auto; [apply handle_keeps; auto|].
  destruct (motions_stepped t _ (motion_handle k t H2)) as [[E _]|(r & c & E & _)]; rewrite E; auto. apply with_cursor_visible; auto.
Qed.
Example C26_ex : motion (ctrl 97) = true /\ motion (alt 62) = true /\ motion (plain (KRune 97)) = false /\
  after (fst (handle (alt 102) sample)) = [101].
Proof. repeat split; reflexivity. Qed.
Print Assumptions C26_motion_keys_keep_text.
Print Assumptions C26_left_right_inverse.
Print Assumptions C26_forward_word.
Print Assumptions C26_cursor_visible_after_motion.

(* ---------- C61 ---------- *)
(** A movement key moves the cursor only where the validator allows, and the observer is told
    exactly of the moves made. *)
Theorem C61_validator_guards_motions : forall k t v, valid t -> motion k = true -> validator (conf t) = Some v ->
  let t' := fst (handle k t) in let evs := snd (handle k t) in
  let from := (Z.of_nat (row t), Z.of_nat (col t)) in let to := (Z.of_nat (row t'), Z.of_nat (col t')) in
  (t' = t /\ forall f g, ~ In (EMoved f g) evs) \/ (v from to = true /\ evs = [EMoved from to]).
Proof.
  intros k t v H M Hv t' evs from to. destruct (motions_stepped t _ (motion_handle k t M)) as [[E N]|(r & c & E & N & A)]; [left; auto|right].
  unfold allowed in A. rewrite Hv in A. subst t' evs. unfold to. rewrite E, N. cbn [row col with_cursor]. auto.
Qed.
(** Backspace, too, asks before moving the cursor back. *)
Theorem C61_validator_guards_backspace : forall t v, valid t -> validator (conf t) = Some v ->
  let t' := fst (handle (plain KBackspace) t) in
  t' = t \/ v (Z.of_nat (row t), Z.of_nat (col t)) (Z.of_nat (row t'), Z.of_nat (col t')) = true.
Proof.
  intros t v H Hv t'. change t' with (fst (backspace t)). unfold backspace. destruct (read_only _); [left; auto|].
  unfold allowed, zpos. rewrite Hv. destruct (col t) eqn:C, (row t) eqn:R; [left; auto|..];
    match goal with |- context [if ?b then _ else _] => destruct b eqn:E end; cbn [fst]; auto.
Qed.
(** Full statement: with a validator that fences off a region (a shell prompt, say), no key
    puts the cursor there.  It fails: the kill keys reset the cursor to (0,0) without asking. *)
Definition prompt : pos -> pos -> bool := fun _ to => 2 <=? snd to.
Theorem C164_kill_bypasses_validator_refuted : exists os, let t := apply_all os new_ta in
  validator (conf t) = Some prompt /\ prompt (0, 0) (Z.of_nat (row t), Z.of_nat (col t)) = true /\
  prompt (0, 0) (Z.of_nat (row (apply (OKey (ctrl 107)) t)), Z.of_nat (col (apply (OKey (ctrl 107)) t))) = false.
Proof. exists [OSetValue [36; 32; 108; 115]; OSetCursor 0 2; OValidator prompt]. repeat split. Qed.
(** Home goes to the first allowed column. *)
Theorem C61_home_goes_to_first_allowed_column : forall t v, valid t -> validator (conf t) = Some v ->
  let t' := fst (handle (plain KHome) t) in
  (exists c, (c <= length (nth (row t) (buf t) []))%nat /\ v (Z.of_nat (row t), Z.of_nat (col t)) (Z.of_nat (row t), Z.of_nat c) = true) ->
  row t' = row t /\ v (Z.of_nat (row t), Z.of_nat (col t)) (Z.of_nat (row t), Z.of_nat (col t')) = true /\
  forall c, (c < col t')%nat -> v (Z.of_nat (row t), Z.of_nat (col t)) (Z.of_nat (row t), Z.of_nat c) = false.
Proof.
  intros t v H Hv t' (c0 & L0 & V0). subst t'. change (fst (handle (plain KHome) t)) with (fst (move_line_start t)). unfold move_line_start. rewrite Hv.
  assert (F : forall n c, (c <= c0 < c + n)%nat -> exists x, first_ok t c n = Some x /\ v (zpos (row t) (col t)) (zpos (row t) x) = true /\
      forall y, (c <= y < x)%nat -> v (zpos (row t) (col t)) (zpos (row t) y) = false).
  { induction n as [|n IH]; intros c Hc; [lia|]. cbn [first_ok]. unfold allowed. rewrite Hv. destruct (v (zpos (row t) (col t)) (zpos (row t) c)) eqn:E.
    - exists c. split; auto. split; auto. intros; lia.
    - destruct (Nat.eq_dec c c0) as [->|Nc]; [unfold zpos in E; congruence|]. destruct (IH (S c)) as (x & X1 & X2 & X3); [lia|].
      exists x. split; auto. split; auto. intros y Hy. destruct (Nat.eq_dec y c) as [->|]; auto. apply X3. lia. }
  destruct (F (S (length (cur_line t))) 0%nat) as (x & X1 & X2 & X3); [unfold cur_line, get_line; lia|]. rewrite X1.
  assert (M : row (fst (move_cursor t (row t) x)) = row t /\ col (fst (move_cursor t (row t) x)) = x).
  { unfold move_cursor, go, allowed. rewrite Hv, X2. destruct (_ && _) eqn:E; [|auto]. apply andb_true_iff in E as [_ E]. apply Nat.eqb_eq in E. auto. }
  destruct M as [M1 M2]. rewrite M1, M2. repeat split; auto. intros c Hc. apply X3. lia.
Qed.
Print Assumptions C61_validator_guards_motions.
Print Assumptions C164_kill_bypasses_validator_refuted.
Print Assumptions C61_home_goes_to_first_allowed_column.

(* ---------- C62 ---------- *)
(** Full statement: after every operation the cursor is inside the visible window.  It holds for
    the movement keys (C26) and for the editing keys that place the cursor. *)
Theorem C62_cursor_visible_after_edit : forall k t, 1 <= height (conf t) -> 1 <= width (conf t) ->
  In k [plain KSpace; plain KEnter; plain KBackspace; plain KDelete; ctrl 119; ctrl 121] \/ (exists c, k = plain (KRune c)) ->
  let t' := fst (handle k t) in t' = t \/ cursor_visible t'.
Proof.
  intros k t Hh Hw Hk t'.
  assert (V : forall b r c, cursor_visible (with_cursor (with_buffer t b) r c)) by (intros; apply with_cursor_visible; auto).
  assert (T : forall ch, type_char t ch = t \/ cursor_visible (type_char t ch)) by (intros; unfold type_char; destruct (read_only _); auto).
  destruct Hk as [[<-|[<-|[<-|[<-|[<-|[<-|[]]]]]]]|[c ->]]; subst t'.
  - apply (T 32).
  - change (fst (handle (plain KEnter) t)) with (newline t). unfold newline. destruct (read_only _); auto. destruct (_ && _); auto.
  - change (fst (handle (plain KBackspace) t)) with (fst (backspace t)). unfold backspace. destruct (read_only _); auto.
    destruct (col t), (row t); auto; destruct (allowed _ _ _); cbn [fst]; auto.
  - change (fst (handle (plain KDelete) t)) with (delete_forward t). unfold delete_forward. destruct (read_only _); auto.
    destruct (_ <=? _)%nat; [destruct (_ <? _)%nat|]; auto.
  - change (fst (handle (ctrl 119) t)) with (kill_word_backward t). unfold kill_word_backward. destruct (read_only _); auto.
    destruct (col t); auto. right. cbv zeta.
    match goal with |- cursor_visible (with_ring (with_cursor (with_buffer t ?b) ?r ?c) _) => exact (V b r c) end.
  - change (fst (handle (ctrl 121) t)) with (yank t). unfold yank. destruct (read_only _); auto.
    destruct (yank_text _); auto. destruct (insert_text _ _ _ _) as [[b r] c]. auto.
  - apply (T c).
Qed.
(** Missing: positioning through the API does not scroll. *)
Theorem C165_set_cursor_position_keeps_visible_refuted : exists os, let t := apply_all os new_ta in
  1 <= height (conf t) /\ cursor_visible t /\ ~ cursor_visible (apply OMoveCursorToEnd t) /\ ~ cursor_visible (apply (OSetCursor 2 0) t).
Proof.
  exists [OSize 10 2; OSetValue [97; 10; 98; 10; 99]]. cbn zeta. split; [vm_compute; congruence|].
  split; [vm_compute; repeat split; congruence|]. split; intros [[A B] _]; vm_compute in A, B; congruence.
Qed.
(** A forward kill moves the cursor to the top without scrolling there. *)
Theorem C165_kill_line_keeps_visible_refuted : exists os, let t := apply_all os new_ta in
  1 <= height (conf t) /\ cursor_visible t /\ ~ cursor_visible (apply (OKey (ctrl 107)) t).
Proof.
  exists [OSize 10 2; OSetValue [97; 10; 98; 10; 99]; OKey (plain KDown); OKey (plain KDown)]. cbn zeta. split; [vm_compute; congruence|].
  split; [vm_compute; repeat split; congruence|]. intros [[A B] _]; vm_compute in A, B. congruence.
Qed.

Print Assumptions C21_cursor_always_in_text. Print Assumptions C21_validity_is_invariant. Print Assumptions C21_lines_are_the_lines_of_value. Print Assumptions C21_set_value_reads_back.
Print Assumptions C22_text_is_before_and_after. Print Assumptions C22_document_determines_state. Print Assumptions C22_typing_inserts_at_cursor. Print Assumptions C22_space_inserts_at_cursor.
Print Assumptions C22_enter_splits_line. Print Assumptions C22_backspace_removes_one_before. Print Assumptions C22_delete_removes_one_after. Print Assumptions C22_backspace_undoes_typing.
Print Assumptions C22_content_parts_are_the_line. Print Assumptions C23_kill_word_backward_and_yank. Print Assumptions C23_kill_line_text. Print Assumptions C23_kill_word_text.
Print Assumptions C158_forward_kill_moves_cursor_refuted. Print Assumptions C158_kill_line_then_yank_restores_refuted. Print Assumptions C159_ctrl_u_kills_to_cursor_refuted. Print Assumptions C24_ring_holds_last_kills.
Print Assumptions C24_ring_never_exceeds_capacity. Print Assumptions C24_latest_kill_is_yanked. Print Assumptions C24_pop_reaches_every_kill. Print Assumptions C24_choice_is_valid_after_a_kill.
Print Assumptions C25_read_only_blocks_all_keys. Print Assumptions C25_max_lines_kept_except_yank. Print Assumptions C160_yank_exceeds_max_lines_refuted. Print Assumptions C161_max_chars_ignored_refuted.
Print Assumptions C26_motion_keys_keep_text. Print Assumptions C26_left_one_character. Print Assumptions C26_right_one_character. Print Assumptions C26_left_right_inverse.
Print Assumptions C26_up_down_clamp_column. Print Assumptions C26_line_and_buffer_ends. Print Assumptions C26_forward_word. Print Assumptions C26_backward_word.
Print Assumptions C26_cursor_visible_after_motion. Print Assumptions C26_visibility_kept_by_motions. Print Assumptions C61_validator_guards_motions. Print Assumptions C61_validator_guards_backspace.
Print Assumptions C164_kill_bypasses_validator_refuted. Print Assumptions C61_home_goes_to_first_allowed_column. Print Assumptions C62_cursor_visible_after_edit. Print Assumptions C165_set_cursor_position_keeps_visible_refuted.
Print Assumptions C165_kill_line_keeps_visible_refuted.
