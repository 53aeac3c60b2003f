(** Properties C01-C07: the render module. Vocabulary: TermEmu (terminal), RenderSpec. *)
From Verif Require Import Prelude TermEmu RenderModel RenderSpec RenderProofs RenderEmu.

(** C01. Applying the operations of Diff(old, new) to [old] gives [new], everywhere. *)
Theorem C01_diff_applied_gives_new : forall old new,
  bw old = bw new -> bh old = bh new ->
  forall x y, patch (get old) (diff old new) x y = get new x y.
Proof. intros old new Hw Hh. apply diff_patch. unfold same_dims. rewrite Hw, Hh, !Nat.eqb_refl. reflexivity. Qed.
Print Assumptions C01_diff_applied_gives_new.

(** C01, frames of different sizes: the operations redraw the new frame from blank. *)
Theorem C01_diff_after_resize : forall old new,
  ~ (bw old = bw new /\ bh old = bh new) ->
  forall x y, char (patch blank_frame (diff old new) x y) = char (get new x y) /\
              cstyle (patch blank_frame (diff old new) x y) = cstyle (get new x y).
Proof. intros old new Hd. apply diff_resized. unfold same_dims. lia. Qed.
Print Assumptions C01_diff_after_resize.

(** C02. Diff contains exactly the positions whose cells differ, once each, in reading order. *)
Theorem C02_diff_minimal : forall old new, bw old = bw new -> bh old = bh new ->
  (forall o, In o (diff old new) <->
     (0 <= ox o < Z.of_nat (bw new) /\ 0 <= oy o < Z.of_nat (bh new)) /\
     get old (ox o) (oy o) <> get new (ox o) (oy o) /\ ocell o = get new (ox o) (oy o)) /\
  StronglySorted before (diff old new).
Proof.
  intros old new Hw Hh.
  assert (Hd : same_dims old new = true) by (unfold same_dims; rewrite Hw, Hh, !Nat.eqb_refl; reflexivity).
  exact (conj (fun o => iff_trans (in_diff old new o Hd) (and_iff_compat_r _ (in_range_spec new (ox o) (oy o))))
              (diff_sorted old new Hd)).
Qed.
Print Assumptions C02_diff_minimal.

(** HasChanges agrees with the frames (and so with Diff) for frames of equal size. *)
Theorem C02_has_changes : forall old new, bw old = bw new -> bh old = bh new ->
  (has_changes (Some old) (Some new) = false <-> forall x y, get old x y = get new x y) /\
  (has_changes (Some old) (Some new) = true <-> diff old new <> []).
Proof.
  intros old new Hw Hh.
  assert (Hd : same_dims old new = true) by (unfold same_dims; rewrite Hw, Hh, !Nat.eqb_refl; reflexivity).
  exact (conj (has_changes_frames old new Hd) (has_changes_diff old new Hd)).
Qed.
Print Assumptions C02_has_changes.

(** Not so across a size change to a blank frame, or for nil frames: HasChanges is true
    while Diff is empty. *)
Theorem C141_has_changes_resize_refuted :
  exists old new, has_changes (Some old) (Some new) = true /\ diff old new = [].
Proof. exists (new_buffer 1 1), (new_buffer 2 1). vm_compute. auto. Qed.
Print Assumptions C141_has_changes_resize_refuted.
Theorem C141_no_old_frame_refuted :
  exists new, diff_opt None (Some new) = [] /\ has_changes None (Some new) = true /\
              char (get new 0 0) = 97.
Proof. exists (fill (new_buffer 1 1) (Cell 97 style0 1)). vm_compute. auto. Qed.
Print Assumptions C141_no_old_frame_refuted.
(** The other direction always holds: when HasChanges says no, there is nothing to do, and both frames are there with equal cells. *)
Theorem C141_no_changes_nothing_to_do_partial : forall old new, has_changes old new = false ->
  diff_opt old new = [] /\ exists o n, old = Some o /\ new = Some n /\ bw o = bw n /\ bh o = bh n /\ forall x y, get o x y = get n x y.
Proof.
  intros [o|] [n|] H; try discriminate H.
  assert (D : same_dims o n = true) by (unfold has_changes in H; destruct (same_dims o n); [reflexivity|discriminate H]).
  pose proof D as D'. unfold same_dims in D'. apply andb_true_iff in D' as [D1 D2]. apply Nat.eqb_eq in D1, D2.
  destruct (C02_has_changes o n D1 D2) as [A B]. split.
  - cbn [diff_opt]. destruct (diff o n) as [|z l] eqn:E; [reflexivity|]. assert (X : has_changes (Some o) (Some n) = true) by (apply B; discriminate). congruence.
  - exists o, n. repeat split; auto. now apply A.
Qed.
Print Assumptions C141_no_changes_nothing_to_do_partial.

(** A resized old frame: exactly the non-blank cells are repainted, in reading order. *)
Theorem C02_resized_repaints_nonblank : forall old new, ~ (bw old = bw new /\ bh old = bh new) ->
  (forall o, In o (diff old new) <->
     in_range new (ox o) (oy o) = true /\
     ~ (char (get new (ox o) (oy o)) = 32 /\ cstyle (get new (ox o) (oy o)) = style0) /\
     ocell o = get new (ox o) (oy o)) /\
  StronglySorted before (diff old new).
Proof. exact diff_resized_spec. Qed.
Print Assumptions C02_resized_repaints_nonblank.

(** C03 (single-column cells). On a terminal of any size that starts blank, after any
    sequence of Render/Clear/Resize/Hide/Show calls whose frames fit the terminal,
    every screen position shows the character of the last frame.
    Missing for the full property: frames with double-width cells, for which it is
    false (next theorem). *)
Theorem C03_screen_shows_last_frame : forall cw W H bc w h cs,
  1 <= W -> 1 <= H -> Forall (call_ok cw W H) cs ->
  let t := feeds cw (blank_term W H bc) (snd (do_calls (new_renderer w h) cs)) in
  forall x y, 0 <= x < W -> 0 <= y < H -> tch (grid t x y) = char (expected cs x y).
Proof. exact screen_chars. Qed.
Print Assumptions C03_screen_shows_last_frame.

(** A concrete sequence satisfying the hypotheses: full redraw, incremental, clear. *)
Definition ex_b1 := fst (set_string (new_buffer 4 2) 0 0 [(97,1);(98,1)] style0).
Definition ex_b2 := fst (set_string (new_buffer 4 2) 1 1 [(99,1)] (Style (Some (Color 1 2 3)) None true false false false false false false false)).
Example C03_hyps : Forall (call_ok (fun _ => 1) 5 3) [Render ex_b1; Render ex_b2; HideCursor; Clear; Render ex_b1].
Proof.
  repeat constructor; try (cbn; lia); try (vm_compute; repeat constructor; discriminate || lia);
  vm_compute; intros; discriminate.
Qed.
Example C03_run :
  let t := feeds (fun _ => 1) (blank_term 5 3 true) (snd (do_calls (new_renderer 4 2) [Render ex_b1; Render ex_b2])) in
  (tch (grid t 0 0), tch (grid t 1 1)) = (32, 99).
Proof. vm_compute. reflexivity. Qed.

(** With double-width characters the incremental update destroys the glyph: the frame
    "x" at column 1, then a wide character at column 0 (both made by SetString). *)
Theorem C142_wide_cells_refuted :
  exists cw b1 b2, let t := feeds cw (blank_term 4 1 false)
     (snd (do_calls (new_renderer 4 1) [Render b1; Render b2])) in
  b1 = fst (set_string (new_buffer 4 1) 1 0 [(120, 1)] style0) /\
  b2 = fst (set_string (new_buffer 4 1) 0 0 [(26085, 2)] style0) /\ cw 26085 = 2 /\
  char (get b2 0 0) = 26085 /\ tch (grid t 0 0) = 32.
Proof.
  exists (fun c => if c <? 4352 then 1 else 2),
    (fst (set_string (new_buffer 4 1) 1 0 [(120, 1)] style0)),
    (fst (set_string (new_buffer 4 1) 0 0 [(26085, 2)] style0)).
  vm_compute. repeat split; reflexivity.
Qed.
Print Assumptions C142_wide_cells_refuted.

(** C04 is false in general: after a bold cell, a plain cell is displayed bold,
    because no reset is written when switching to the empty style. *)
Theorem C143_style_leak_refuted :
  exists b, let t := feeds (fun _ => 1) (blank_term 4 1 false)
      (snd (do_calls (new_renderer 4 1) [Render b])) in
    frame_ok (fun _ => 1) 4 1 b /\ char (get b 1 0) = 98 /\
    cstyle (get b 1 0) = style0 /\ p_bold (tpen (grid t 1 0)) = true.
Proof.
  exists (fst (set_string (fst (set_string (new_buffer 4 1) 0 0 [(97,1)]
    (Style None None true false false false false false false false))) 1 0 [(98,1)] style0)).
  split; [|vm_compute; auto].
  repeat constructor; try (cbn; lia); vm_compute; intros; discriminate.
Qed.
Print Assumptions C143_style_leak_refuted.

(** C04 for frames whose cells all switch on the same attributes (colour values may
    differ): every position of the last frame shows its style.
    Missing: frames that mix attribute sets (false, above). *)
Theorem C04_styles_uniform : forall cw W H bc w h cs b s0,
  1 <= W -> 1 <= H ->
  Forall (call_ok cw W H) (cs ++ [Render b]) -> Forall (call_shape s0) (cs ++ [Render b]) ->
  let t := feeds cw (blank_term W H bc) (snd (do_calls (new_renderer w h) (cs ++ [Render b]))) in
  forall x y, in_range b x y = true -> tpen (grid t x y) = pen_of (cstyle (get b x y)).
Proof. exact screen_pens. Qed.
Print Assumptions C04_styles_uniform.

Definition ex_red := Style (Some (Color 255 0 0)) None false false false false false false false false.
Definition ex_blue := Style (Some (Color 0 0 255)) None false false false false false false false false.
Definition ex_c1 := fill (new_buffer 3 1) (Cell 97 ex_red 1).
Definition ex_c2 := set ex_c1 1 0 (Cell 98 ex_blue 1).
Example C04_hyps : Forall (call_ok (fun _ => 1) 5 3) ([Render ex_c1; Clear] ++ [Render ex_c2]) /\
  Forall (call_shape ex_red) ([Render ex_c1; Clear] ++ [Render ex_c2]).
Proof.
  split; repeat constructor; try (cbn; lia); vm_compute; intros; discriminate.
Qed.

(** C05. After any history, rendering a frame equal to the one just rendered writes
    nothing and changes nothing. *)
Theorem C05_rerender_writes_nothing : forall w h cs b b',
  let r := fst (do_calls (new_renderer w h) (cs ++ [Render b])) in
  bw b = bw b' -> bh b = bh b' -> (forall x y, get b x y = get b' x y) ->
  render r b' = (r, []).
Proof.
  intros w h cs b b' r Hw Hh Hg. subst r. rewrite do_calls_app.
  pose proof (dims_calls cs (new_renderer w h) (conj eq_refl eq_refl)) as Hd.
  destruct (do_calls (new_renderer w h) cs) as [r1 o1]. cbn [fst do_calls do_call] in *.
  assert (Hs : same_dims b b' = true) by (unfold same_dims; rewrite Hw, Hh, !Nat.eqb_refl; reflexivity).
  pose proof (rerender_silent r1 b b' Hd Hs Hg) as Hr.
  destruct (render r1 b) as [r2 o2]. exact Hr.
Qed.
Print Assumptions C05_rerender_writes_nothing.

(** C06. Buffer laws. *)
Theorem C06_get_set : forall b x y c x' y', wf_buf b ->
  get (set b x y c) x' y' = if (x =? x') && (y =? y') && in_range b x y then c else get b x' y'.
Proof. exact get_set. Qed.
Print Assumptions C06_get_set.

Theorem C06_new_clear_fill : forall b w h c x y,
  get (new_buffer w h) x y = empty_cell /\ get (clear_buf b) x y = empty_cell /\
  get (fill b c) x y = (if in_range b x y then c else empty_cell).
Proof. exact (fun b w h c x y => conj (get_new w h x y) (conj (get_clear b x y) (get_fill b c x y))). Qed.
Print Assumptions C06_new_clear_fill.

Theorem C06_resize_keeps_overlap : forall b w h x y,
  get (resize b w h) x y =
  if (0 <=? x) && (x <? w) && (0 <=? y) && (y <? h) then get b x y else empty_cell.
Proof. exact get_resize. Qed.
Print Assumptions C06_resize_keeps_overlap.

(** Every buffer operation yields a well-formed buffer. *)
Theorem C06_wf : forall b x y w h c cl st, wf_buf b ->
  wf_buf (new_buffer w h) /\ wf_buf (set b x y c) /\ wf_buf (fill b c) /\
  wf_buf (resize b w h) /\ wf_buf (clear_buf b) /\ wf_buf (fst (set_string b x y cl st)).
Proof.
  intros b x y w h c cl st Hb.
  assert (Hs : wf_buf (fst (set_string b x y cl st))).
  { unfold set_string. destruct (_ || _); [exact Hb|apply wf_set_clusters, Hb]. }
  exact (conj (wf_new w h) (conj (wf_set b x y c Hb) (conj (wf_fill b c)
        (conj (wf_resize b w h) (conj (wf_clear b) Hs))))).
Qed.
Print Assumptions C06_wf.

(** SetString stores the clusters side by side and touches nothing else. *)
Theorem C06_set_string : forall b x y cl st, wf_buf b -> 0 <= x -> 0 <= y < Z.of_nat (bh b) ->
  Forall (fun p => 1 <= snd p) cl ->
  (forall x' ch, In (x', ch) (layout_at x cl) -> x' < Z.of_nat (bw b) ->
     exists w, get (fst (set_string b x y cl st)) x' y = Cell ch st w /\ In (ch, w) cl) /\
  (forall x' y', y' <> y \/ x' < x \/ x + fold_right (fun p a => snd p + a) 0 cl <= x' ->
     get (fst (set_string b x y cl st)) x' y' = get b x' y').
Proof.
  intros b x y cl st Hb Hx Hy Hw. unfold set_string.
  replace ((y <? 0) || (Z.of_nat (bh b) <=? y) || (x <? 0)) with false by lia.
  exact (conj (fun x' ch Hi Hl => set_clusters_in cl b x y st 0 x' ch Hb Hx Hy Hw Hi Hl)
              (fun x' y' Ho => set_clusters_out cl b x y st 0 x' y' Hb Hw Ho)).
Qed.
Print Assumptions C06_set_string.
Example C06_set_string_hyps : wf_buf (new_buffer 4 2) /\ 0 <= 1 /\ 0 <= 1 < Z.of_nat (bh (new_buffer 4 2)) /\
  Forall (fun p => 1 <= snd p) [(97,1);(26085,2)].
Proof. split; [apply wf_new|]. split; [lia|]. split; [cbn; lia|]. repeat constructor; cbn; lia. Qed.

(** SetLine: the text from column 0, blanks after it, other rows untouched. *)
Theorem C06_set_line : forall b y cl st, wf_buf b -> 0 <= y < Z.of_nat (bh b) ->
  Forall (fun p => 1 <= snd p) cl ->
  (forall x' ch, In (x', ch) (layout_at 0 cl) -> x' < Z.of_nat (bw b) ->
     exists w, get (set_line b y cl st) x' y = Cell ch st w /\ In (ch, w) cl) /\
  (forall x', fold_right (fun p a => snd p + a) 0 cl <= x' -> get (set_line b y cl st) x' y = empty_cell) /\
  (forall x' y', y' <> y -> get (set_line b y cl st) x' y' = get b x' y').
Proof. exact set_line_spec. Qed.
Print Assumptions C06_set_line.

(** C07. A style's escape sequence, written on a terminal with default rendition, gives
    exactly that rendition and nothing else; distinct styles have distinct sequences. *)
Theorem C07_to_ansi_faithful : forall cw s t, pst t = Ground -> tpn t = pen0 -> style_ok s ->
  feeds cw t (to_ansi s) = set_pen t (pen_of s).
Proof.
  intros cw s t Hg Hp Hs.
  exact (eq_trans (feeds_style cw s t Hg Hs)
           (f_equal (set_pen t) (eq_trans (f_equal (merge s) Hp) (merge_pen0 s)))).
Qed.
Print Assumptions C07_to_ansi_faithful.

Theorem C07_to_ansi_injective : forall a b, style_ok a -> style_ok b -> to_ansi a = to_ansi b -> a = b.
Proof. exact to_ansi_inj. Qed.
Print Assumptions C07_to_ansi_injective.
Example C07_hyps : style_ok ex_red /\ style_ok ex_blue /\ to_ansi ex_red <> to_ansi ex_blue.
Proof. repeat split; try (cbn; lia); vm_compute; discriminate. Qed.
