(** C27, C28, C63, C64: the single-line text input. *)
From Verif Require Import Prelude Utf8 InModel InSpec InProofs.

Definition key_rune (c : Z) : ikey := IKey false c IRune.
Definition key_of (x : itype) : ikey := IKey false 0 x.

(* ---------- C27 ---------- *)
(** After any history, for any segmentation, the cursor lies between 0 and the number of
    clusters and a non-empty selection lies inside the content. *)
Theorem C27_cursor_and_selection_valid : forall brk w os, let t := iapply_all brk os (new_inp w) in
  (cursor t <= length (graphemes brk (content t)))%nat /\
  (forall a b, sel t = Some (a, b) -> a <> b -> (a < b <= length (graphemes brk (content t)))%nat).
Proof. intros brk w os t. destruct (iapply_all_valid brk os _ (new_ivalid brk w)) as [A B _]. auto. Qed.
(** Keys are ignored without focus. *)
Theorem C27_unfocused_ignores_keys : forall brk t k, focused t = false -> update brk t k = t.
Proof. intros brk t k H. unfold update. now rewrite H. Qed.
(** Clusters partition the content (the specification of "cluster" used here). *)
Theorem C27_clusters_partition_content : forall brk s, concat (graphemes brk s) = s /\ Forall (fun g => g <> []) (graphemes brk s).
Proof. intros. split; [apply gs_concat|apply seg_nonempty]. Qed.
(** "e" + accent is one cluster; backspace at the end removes both code points. *)
Example C27_ex : let t := iapply_all accents [IFocus true; ISetContent [97; 101; 769; 98] 2; IKeyOp (key_of IBackspace)] (new_inp 10) in
  content t = [97; 98] /\ cursor t = 1%nat.
Proof. split; reflexivity. Qed.
Print Assumptions C27_cursor_and_selection_valid.

(* ---------- C28 ---------- *)
Theorem C28_content_is_before_and_after : forall brk t, content t = ibefore brk t ++ iafter brk t.
Proof. intros. unfold ibefore, iafter. rewrite <- concat_app, firstn_skipn. symmetry. apply gs_concat. Qed.
(** ContentParts: before, the cluster under the cursor, after. *)
Theorem C28_content_parts_concatenate : forall brk t, ivalid brk t ->
  let '(b, a, c) := split_at brk (content t) (cursor t) in
  b = ibefore brk t /\ a ++ c = iafter brk t /\ b ++ a ++ c = content t /\ a = nth (cursor t) (graphemes brk (content t)) [].
Proof. intros brk t V. exact (split_parts brk (content t) (cursor t) (i_cursor _ _ V)). Qed.
(** Typing puts the character between what was before and after the cursor. *)
Theorem C28_typing_inserts_at_cursor : forall brk t r, ivalid brk t -> focused t = true -> has_sel t = false ->
  content (update brk t (key_rune r)) = ibefore brk t ++ [r] ++ iafter brk t.
Proof. intros brk t r V F H. unfold update. rewrite F. apply (insert_eq brk t r V H). Qed.
(** Typing over a selection is removing exactly the selected clusters, then typing there. *)
Theorem C28_typing_replaces_selection : forall brk t r a b, ivalid brk t -> focused t = true -> sel t = Some (a, b) -> a <> b ->
  let g := graphemes brk (content t) in
  exists t', content t' = concat (firstn a g ++ skipn b g) /\ cursor t' = a /\ sel t' = None /\ focused t' = true /\ ivalid brk t' /\
    update brk t (key_rune r) = update brk t' (key_rune r).
Proof.
  intros brk t r a b V F E N g. exists (delete_selection brk t).
  assert (H : has_sel t = true) by (unfold has_sel, sel_empty; rewrite E; cbn; apply negb_true_iff, Nat.eqb_neq; auto).
  destruct (delete_sel_valid brk t V H) as [V' S']. pose proof (delete_sel_eq brk t a b E N V) as D.
  assert (F' : focused (delete_selection brk t) = true) by (rewrite D; exact F).
  assert (H' : has_sel (delete_selection brk t) = false) by (unfold has_sel; now rewrite S').
  split; [rewrite D, concat_app; reflexivity|]. split; [rewrite D; reflexivity|]. split; [auto|]. split; [auto|]. split; [exact V'|].
  unfold update. rewrite F, F'. change (insert_rune brk t r = insert_rune brk (delete_selection brk t) r). unfold insert_rune. rewrite H, H'. reflexivity.
Qed.
(** Backspace removes exactly the cluster before the cursor; Delete the one after. *)
Theorem C28_backspace_removes_one_cluster : forall brk t, ivalid brk t -> focused t = true -> has_sel t = false ->
  let g := graphemes brk (content t) in let t' := update brk t (key_of IBackspace) in
  (cursor t = 0%nat /\ t' = t) \/
  (exists k, cursor t = S k /\ cursor t' = k /\ content t' = concat (firstn k g ++ skipn (S k) g)).
Proof.
  intros brk t V F H g t'. subst t'. unfold update. rewrite F. change (bind brk t (key_of IBackspace)) with (delete_backward brk t).
  destruct (cursor t) as [|k] eqn:C.
  - left. split; auto. unfold delete_backward. now rewrite H, C.
  - right. exists k. split; auto. rewrite backward_eq by (auto; lia). rewrite C. cbn [put cursor content]. replace (S k - 1)%nat with k by lia.
    rewrite concat_app. auto.
Qed.
Theorem C28_delete_removes_one_cluster : forall brk t, ivalid brk t -> focused t = true -> has_sel t = false ->
  let g := graphemes brk (content t) in let t' := update brk t (key_of IDelete) in
  cursor t' = cursor t /\
  ((cursor t = length g /\ t' = t) \/ ((cursor t < length g)%nat /\ content t' = concat (firstn (cursor t) g ++ skipn (S (cursor t)) g))).
Proof.
  intros brk t V F H g t'. subst t'. unfold update. rewrite F. change (bind brk t (key_of IDelete)) with (delete_forward_ brk t).
  destruct (Nat.le_gt_cases (length g) (cursor t)) as [L|L].
  - assert (E : delete_forward_ brk t = t) by (unfold delete_forward_; rewrite H; unfold gcount; fold g; replace (_ <=? cursor t)%nat with true by (symmetry; apply Nat.leb_le; auto); reflexivity).
    rewrite E. split; auto. left. split; auto. destruct V as [V _ _]. fold g in V. lia.
  - rewrite forward_eq by auto. cbn [put cursor content]. rewrite concat_app. auto.
Qed.
(** The cursor ends right after the typed character whenever that character stands alone. *)
Theorem C270_cursor_after_typed : forall brk t r, ivalid brk t -> focused t = true -> has_sel t = false ->
  brk (rev (ibefore brk t)) r = true \/ ibefore brk t = [] ->
  match iafter brk t with [] => True | c :: _ => brk (rev (ibefore brk t ++ [r])) c = true end ->
  let t' := update brk t (key_rune r) in
  ibefore brk t' = ibefore brk t ++ [r] /\ iafter brk t' = iafter brk t.
Proof. intros brk t r V F H B1 B2 t'. subst t'. unfold update. rewrite F. exact (insert_cursor brk t r V H B1 B2). Qed.
(** Missing: a combining character typed in the middle moves the cursor past the next cluster. *)
Theorem C138_combining_mark_refuted : exists t, ivalid accents t /\ focused t = true /\ has_sel t = false /\
  let t' := update accents t (key_rune 769) in
  content t' = [97; 769; 98; 99] /\ ibefore accents t' = [97; 769; 98] /\ ibefore accents t = [97].
Proof.
  exists (iapply_all accents [IFocus true; ISetContent [97; 98; 99] 1] (new_inp 10)).
  split; [apply iapply_all_valid, new_ivalid|]. repeat split; reflexivity.
Qed.
Example C28_ex : let t := iapply_all accents [IFocus true; ISetContent [97; 101; 769; 98] 1] (new_inp 10) in
  has_sel t = false /\ content (update accents t (key_rune 120)) = [97; 120; 101; 769; 98] /\
  content (update accents t (key_of IDelete)) = [97; 98].
Proof. repeat split; reflexivity. Qed.
Print Assumptions C28_backspace_removes_one_cluster.
Print Assumptions C270_cursor_after_typed.
Print Assumptions C138_combining_mark_refuted.

(* ---------- C63 ---------- *)
(** View never fails, whatever the content, segmentation, width and cursor. *)
Theorem C63_view_total : forall brk w os, exists d, render_content brk (iapply_all brk os (new_inp w)) = Some d.
Proof. intros. apply render_total, iapply_all_valid, new_ivalid. Qed.
(** For ASCII content a focused input shows a window of at most [width] characters of the
    content around the cursor, the cursor cell holding the character under the cursor. *)
Theorem C63_view_is_window_at_cursor : forall t, ivalid every t -> ascii (content t) -> focused t = true ->
  exists x b a c y, render_content every t = Some (WithCell b a c) /\ content t = x ++ (b ++ a ++ c) ++ y /\
    x ++ b = ibefore every t /\ a ++ c ++ y = iafter every t /\ (length a <= 1)%nat /\ (a = [] -> iafter every t = []) /\
    Z.of_nat (length (b ++ a ++ c)) <= iwidth t.
Proof. exact render_window. Qed.
(** C139: with characters of several bytes the window cuts characters in the middle: what is
    drawn for "e-acute" x 4 in width 3 with the cursor at 3 is not even UTF-8. *)
Theorem C139_multibyte_content_cut_refuted : exists t b a c, ivalid every t /\ Forall scalar (content t) /\
  render_content every t = Some (WithCell b a c) /\ ~ (exists s, Forall scalar s /\ enc s = b ++ a ++ c).
Proof.
  set (t := iapply_all every [IFocus true; IWidth 3; ISetContent [233; 233; 233; 233] 3] (new_inp 10)).
  exists t, [169; 195], [194; 169], []. split; [apply iapply_all_valid, new_ivalid|].
  split; [repeat constructor; unfold scalar; lia|]. split; [reflexivity|].
  intros (s & Hs & E). destruct s as [|c s]; [discriminate|]. inversion Hs; subst. cbn [enc flat_map app] in E.
  unfold enc_rune in E. destruct H1 as [H1|H1]; destruct (c <? 128) eqn:C1; destruct (c <? 2048) eqn:C2; destruct (c <? 65536) eqn:C3; cbn [app] in E; apply (f_equal (fun l => nth 0 l 0)) in E; cbn [nth] in E; lia.
Qed.
(** Content that fits (in bytes) is drawn whole, cut only around the cursor's cluster. *)
Theorem C139_fitting_content_partial : forall brk t, ivalid brk t -> Z.of_nat (length (enc (content t))) <= iwidth t ->
  render_content brk t = Some (if focused t
    then WithCell (enc (ibefore brk t)) (enc (nth (cursor t) (graphemes brk (content t)) [])) (enc (concat (skipn (S (cursor t)) (graphemes brk (content t)))))
    else NoCell (enc (content t))).
Proof.
  intros brk t V F. unfold render_content. pose proof (split_parts brk (content t) (cursor t) (i_cursor _ _ V)) as P.
  unfold split_at in *. fold (gcount brk (content t)) in *. unfold bytes.
  destruct (cursor t <? gcount brk (content t))%nat eqn:L.
  - destruct P as (_ & _ & P3 & _). rewrite P3. replace (_ <=? iwidth t) with true by lia. reflexivity.
  - destruct P as (P1 & P2 & P3 & P4). rewrite P3. replace (_ <=? iwidth t) with true by lia. rewrite <- P4. unfold ibefore. rewrite <- P1.
    apply Nat.ltb_ge in L. unfold gcount in L. rewrite (skipn_all2 _ (n := S (cursor t))) by lia. reflexivity.
Qed.
Example C63_ex : render_content every (iapply_all every [IFocus true; IWidth 3; ISetContent [97; 98; 99; 100; 101] 4] (new_inp 10)) = Some (WithCell [99; 100] [101] []).
Proof. reflexivity. Qed.
Print Assumptions C63_view_total.
Print Assumptions C63_view_is_window_at_cursor.
Print Assumptions C139_multibyte_content_cut_refuted.

(* ---------- C64 ---------- *)
(** Chain accepts exactly what every validator accepts and otherwise reports the first error. *)
Theorem C64_chain_accepts_iff_all : forall vs s, chain vs s = None <-> Forall (fun v => v s = None) vs.
Proof.
  induction vs as [|v vs IH]; intros s; cbn [chain]; [split; auto|]. destruct (v s) eqn:E.
  - split; [discriminate|]. intros H. inversion H; congruence.
  - rewrite IH. split; [auto|]. intros H. now inversion H.
Qed.
Theorem C64_chain_reports_first_error : forall pre v post s e, Forall (fun v => v s = None) pre -> v s = Some e -> chain (pre ++ v :: post) s = Some e.
Proof. induction 1 as [|u pre Hu _ IH]; intros E; cbn [app chain]; [now rewrite E|]. rewrite Hu. auto. Qed.
Theorem C64_range_is_min_and_max : forall a b s, range_ a b s = None <-> min_length a s = None /\ max_length b s = None.
Proof. intros a b s. unfold range_, min_length, max_length. destruct (_ <? a); destruct (b <? _); split; intros H; try discriminate; auto; destruct H; discriminate. Qed.
(** For ASCII content the length is the number of characters ... *)
Theorem C300_length_counts_ascii : forall n s, ascii s ->
  (min_length n s = None <-> n <= Z.of_nat (length s)) /\ (max_length n s = None <-> Z.of_nat (length s) <= n).
Proof.
  intros n s H. unfold min_length, max_length, bytes. rewrite enc_ascii by auto. split; split; intros K; auto.
  - destruct (_ <? _) eqn:E; [discriminate|lia].
  - replace (_ <? _) with false by lia. reflexivity.
  - destruct (_ <? _) eqn:E; [discriminate|lia].
  - replace (_ <? _) with false by lia. reflexivity.
Qed.
(** ... but in general bytes are counted: a two-character name satisfies a minimum of 4. *)
Theorem C140_length_counts_bytes_refuted : exists s, length s = 2%nat /\ Forall scalar s /\ min_length 4 s = None /\ max_length 3 s <> None.
Proof. exists [233; 232]. repeat split; try discriminate. repeat constructor; unfold scalar; lia. Qed.
Example C64_ex : chain [not_empty; min_length 3] [97; 98] = Some ETooShort.
Proof. reflexivity. Qed.

Print Assumptions C27_cursor_and_selection_valid. Print Assumptions C27_unfocused_ignores_keys. Print Assumptions C27_clusters_partition_content. Print Assumptions C28_content_is_before_and_after.
Print Assumptions C28_content_parts_concatenate. Print Assumptions C28_typing_inserts_at_cursor. Print Assumptions C28_typing_replaces_selection. Print Assumptions C28_backspace_removes_one_cluster.
Print Assumptions C28_delete_removes_one_cluster. Print Assumptions C270_cursor_after_typed. Print Assumptions C138_combining_mark_refuted. Print Assumptions C63_view_total.
Print Assumptions C63_view_is_window_at_cursor. Print Assumptions C139_multibyte_content_cut_refuted. Print Assumptions C139_fitting_content_partial. Print Assumptions C64_chain_accepts_iff_all.
Print Assumptions C64_chain_reports_first_error. Print Assumptions C64_range_is_min_and_max. Print Assumptions C300_length_counts_ascii. Print Assumptions C140_length_counts_bytes_refuted.
