(** Properties C11, C12: the inline (non-alternate-screen) renderer.
    Vocabulary: InlineSpec (styled lines, [cut], [displayed]), TermEmu (the terminal),
    InlineEmu ([paint]: the cells a text occupies, [emu]: feed bytes to the terminal),
    InlineFrames ([adm]: the histories covered). *)
From Verif Require Import Prelude Utf8 TermEmu InlineModel InlineSpec TruncProofs TruncItems InlineEmu InlineFrames.

(** C12. A styled line is cut exactly where the first character does not fit; everything
    before it (escape sequences included) is kept byte for byte; a line that fits is
    unchanged. [rdw zw] is the column width the library assigns to a character. *)
Theorem C12_truncate_is_cut : forall zw l maxw, 0 < maxw -> Forall item_ok l ->
  truncate_line zw (line_bytes l) maxw = line_bytes (cut (rdw zw) maxw l) /\
  cols (rdw zw) (visible (cut (rdw zw) maxw l)) <= maxw /\
  (cols (rdw zw) (visible l) <= maxw -> cut (rdw zw) maxw l = l).
Proof.
  intros zw l maxw Hm Hl.
  exact (conj (truncate_items zw l maxw Hm Hl)
        (conj (cut_cols zw l maxw (Z.lt_le_incl _ _ Hm)) (cut_all zw l maxw))).
Qed.
Print Assumptions C12_truncate_is_cut.
Definition red_word : list item := [SCsi [51; 49] 109; Ch 104; Ch 26085; SOscSt [56; 59; 59]; Ch 105; SCsi [48] 109].
Example C12_hyps : Forall item_ok red_word /\
  cut (rdw (fun _ => false)) 3 red_word = [SCsi [51; 49] 109; Ch 104; Ch 26085; SOscSt [56; 59; 59]].
Proof. split; [|vm_compute; reflexivity]. repeat constructor; unfold scalar; cbn; lia. Qed.

(** Reading the displayed width back with the library's own measure agrees. *)
Theorem C12_measured_width : forall zw l, Forall item_ok l ->
  visual_width zw (line_bytes l) = cols (rdw zw) (visible l).
Proof. exact visual_width_line. Qed.
Print Assumptions C12_measured_width.

(** For arbitrary bytes (malformed UTF-8 and stray or unterminated escapes included) the
    width bound holds if no multi-byte sequence decodes to an ASCII character.
    [zw_ok]: U+FFFD and non-characters are not zero-width in Go's tables. *)
Theorem C12_width_bound : forall zw, zw_ok zw -> forall s maxw, 0 < maxw ->
  no_overlong s -> Forall (fun b => 0 <= b) s ->
  visual_width zw (truncate_line zw s maxw) <= maxw.
Proof. exact truncate_width. Qed.
Print Assumptions C12_width_bound.

(** ... and for every text in which an ESC is followed by an ASCII character, the result
    is a byte prefix of the line, cut in front of a visible character that does not fit. *)
Theorem C12_cut_position : forall zw, zw_ok zw -> forall t maxw, 0 < maxw -> Forall scalar t -> esc_ascii t ->
  exists t1 t2, t = t1 ++ t2 /\ truncate_line zw (enc t) maxw = enc t1 /\
    visual_width zw (enc t1) <= maxw /\
    plain (enc t) = plain (enc t1) ++ plain (enc t2) /\
    match t2 with [] => True | c :: _ => c <> 27 /\ maxw < visual_width zw (enc t1) + rdw zw c end.
Proof. exact truncate_cut. Qed.
Print Assumptions C12_cut_position.
Example C12_cut_hyps : zw_ok (fun _ => false) /\ Forall scalar [27; 91; 49; 109; 97; 27; 93; 48] /\
  esc_ascii [27; 91; 49; 109; 97; 27; 93; 48].
Proof. repeat split; auto; try (repeat constructor; unfold scalar; lia); cbn; intuition lia. Qed.

(** The restriction is needed: the two bytes C0 9B (an overlong ESC) in front of an emoji
    defeat the measurement, and a line limited to 2 columns comes out 3 columns wide. *)
Theorem C150_overlong_escape_refuted :
  exists s, visual_width (fun _ => false) (truncate_line (fun _ => false) s 2) = 3.
Proof. exists [192; 155; 240; 159; 152; 128; 97]. vm_compute. reflexivity. Qed.
Print Assumptions C150_overlong_escape_refuted.

(** The widths the cut is based on, against Unicode's blocks ([zw] is Go's table of marks and
    format characters, consulted only outside the wide blocks). *)
Theorem C12_character_widths : forall zw c,
  (double_width c -> rdw zw c = 2) /\
  (single_width c -> zw c = false -> rdw zw c = 1) /\
  (0 <= c < 32 \/ 127 <= c < 160 -> rdw zw c = 0) /\
  (zw c = true -> 160 <= c < 4352 -> rdw zw c = 0).
Proof.
  intros zw c. unfold double_width, single_width, rdw.
  replace (in_ranges c wide_ranges) with
    (existsb (fun p => (fst p <=? c) && (c <=? snd p)) wide_ranges) by reflexivity.
  cbn [existsb wide_ranges fst snd].
  split; [|split; [|split]].
  - intros H. replace (c <? 32) with false by lia. replace ((127 <=? c) && (c <? 160)) with false by lia. cbn [orb].
    match goal with |- (if ?b then _ else _) = _ => replace b with true by lia end. reflexivity.
  - intros H Hz. replace (c <? 32) with false by lia. replace ((127 <=? c) && (c <? 160)) with false by lia. cbn [orb].
    match goal with |- (if ?b then _ else _) = _ => replace b with false by lia end. now rewrite Hz.
  - intros H. match goal with |- (if ?b then _ else _) = _ => replace b with true by lia end. reflexivity.
  - intros Hz H. replace (c <? 32) with false by lia. replace ((127 <=? c) && (c <? 160)) with false by lia. cbn [orb].
    match goal with |- (if ?b then _ else _) = _ => replace b with false by lia end. now rewrite Hz.
Qed.
Print Assumptions C12_character_widths.
Example C12_widths_ex : double_width 26085 /\ single_width 233.
Proof. unfold double_width, single_width. lia. Qed.

(** C11. On a [W] x [H] terminal with the cursor at the start of row [cy t] and blank rows
    from there on: after any covered history, there is a top row such that row [top + j]
    shows exactly line [j] of the last view (blank beyond its last line), the cursor is at
    the start of the region's last row, and everything above is what was there before,
    scrolled up by as many rows as the region needed.
    Covered ([adm]): lines made of characters and colour/attribute/OSC sequences whose
    shown width is less than [W], at most [H] lines shown, and excluding the three
    situations refuted below. *)
Theorem C11_region_shows_last_view : forall cw zw W H t w h cs,
  1 <= W -> tw t = W -> th t = H -> pst t = Ground -> pend t = false -> cx t = 0 -> 0 <= cy t < H ->
  (forall x y, 0 <= x < W -> cy t <= y < H -> cell2 (grid t x y) = blankc) ->
  adm cw zw W H w h false [] cs ->
  let frame := displayed (rdw zw) w h [] cs in
  let t' := emu cw t (snd (do_icalls zw (new_inline w h) (map to_icall cs))) in
  exists top, 0 <= top <= cy t /\
    cx t' = 0 /\ cy t' = top + Z.of_nat (pred (length frame)) /\ cy t' < H /\
    (forall j x, 0 <= x < W -> top + Z.of_nat j < H ->
       cell2 (grid t' x (top + Z.of_nat j)) = nth (Z.to_nat x) (paint cw (visible (nth j frame []))) blankc) /\
    (forall x y, 0 <= y < top -> grid t' x y = grid t x (y + (cy t - top))).
Proof. exact inline_shows. Qed.
Print Assumptions C11_region_shows_last_view.

Definition zw0 : Z -> bool := fun _ => false.
Definition txt (s : list Z) : list item := map Ch s.
(* three lines, one wide and styled; a change; a resize; growing past the screen's bottom;
   shrinking *)
Definition history : list scall :=
  [ SRender [txt [97; 98]; red_word; txt [99]];
    SRender [txt [97; 98]; txt [120]; txt [99]];
    SResize 4 3;
    SRender [txt [97; 98; 99; 100; 101]; txt [26085]; txt [99]; txt [100]];
    SRender [txt [49]; txt []] ].
Example C11_hyps : adm (rdw zw0) zw0 6 4 5 0 false [] history /\
  displayed (rdw zw0) 5 0 [] (firstn 4 history) = [txt [26085]; txt [99]; txt [100]].
Proof.
  split; [|vm_compute; reflexivity].
  assert (Hok : forall s, Forall (fun c => scalar c /\ 32 <= c /\ c <> 127) s ->
    Forall (show_ok (rdw zw0) (rdw zw0)) (txt s)).
  { intros s Hs. unfold txt. rewrite Forall_map. eapply Forall_impl; [|exact Hs]. cbn. tauto. }
  assert (Hred : Forall (show_ok (rdw zw0) (rdw zw0)) red_word)
    by (repeat constructor; unfold scalar; cbn; lia).
  assert (Hw : forall w W ls, forallb (fun l => cols (rdw zw0) (visible (fitted (rdw zw0) w l)) <? W) ls = true ->
    Forall (fun l => cols (rdw zw0) (visible (fitted (rdw zw0) w l)) < W) ls).
  { intros w W ls Hb. rewrite forallb_forall in Hb. rewrite Forall_forall. intros l Hl. specialize (Hb l Hl). lia. }
  unfold history. cbn [adm].
  repeat match goal with
  | |- Forall (Forall _) (_ :: _) => constructor
  | |- Forall (Forall _) [] => constructor
  | |- Forall (show_ok _ _) (txt _) => apply Hok; repeat constructor; unfold scalar; lia
  | |- Forall (show_ok _ _) red_word => exact Hred
  | |- _ /\ _ => split
  | |- _ <> [] => vm_compute; discriminate
  | |- True => exact I
  | |- Forall _ (keep _ _) => apply Hw; vm_compute; reflexivity
  | |- _ <= _ => vm_compute; congruence
  | |- _ -> _ => intro
  end; try (left; vm_compute; reflexivity); try (vm_compute in H0; lia); try discriminate.
Qed.

(** The excluded situations, each with the frame that should be shown and the screen that is. *)
Definition screen_after (W H w h : Z) (cs : list scall) : term :=
  emu (rdw zw0) (blank_term W H false) (snd (do_icalls zw0 (new_inline w h) (map to_icall cs))).

(** A line exactly as wide as the terminal loses its last character (the erase-to-end
    sequence acts on the pending-wrap column). *)
Theorem C147_full_width_line_refuted :
  displayed (rdw zw0) 4 3 [] [SRender [txt [97; 98; 99; 100]]] = [txt [97; 98; 99; 100]] /\
  tch (grid (screen_after 4 3 4 3 [SRender [txt [97; 98; 99; 100]]]) 3 0) = 32.
Proof. vm_compute. auto. Qed.
Print Assumptions C147_full_width_line_refuted.

(** Every over-long line is cut to exactly the terminal's width and so loses its last
    character too. *)
Theorem C147_truncated_line_refuted :
  displayed (rdw zw0) 4 3 [] [SRender [txt [97; 98; 99; 100; 101; 102]]] = [txt [97; 98; 99; 100]] /\
  tch (grid (screen_after 4 3 4 3 [SRender [txt [97; 98; 99; 100; 101; 102]]]) 3 0) = 32.
Proof. vm_compute. auto. Qed.
Print Assumptions C147_truncated_line_refuted.

(** A view that loses lines while its new last line is unchanged: that line is erased. *)
Theorem C148_shrink_refuted :
  displayed (rdw zw0) 9 3 [] [SRender [txt [97]; txt [98]]; SRender [txt [97]]] = [txt [97]] /\
  tch (grid (screen_after 9 3 9 3 [SRender [txt [97]; txt [98]]; SRender [txt [97]]]) 0 0) = 32.
Proof. vm_compute. auto. Qed.
Print Assumptions C148_shrink_refuted.

(** After Repaint or Resize, rendering the empty view is skipped: the old view stays. *)
Theorem C149_empty_after_repaint_refuted :
  displayed (rdw zw0) 9 3 [] [SRender [txt [97]]; SRepaint; SRender [[]]] = [[]] /\
  tch (grid (screen_after 9 3 9 3 [SRender [txt [97]]; SRepaint; SRender [[]]]) 0 0) = 97.
Proof. vm_compute. auto. Qed.
Print Assumptions C149_empty_after_repaint_refuted.
