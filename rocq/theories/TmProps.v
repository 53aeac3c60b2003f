(** Properties of the terminal API (ANSI implementation). *)
From Coq Require String Ascii. Import String.StringSyntax.
From Verif Require Import Prelude TermEmu RenderModel RenderEmu TmModel TmSpec TmProofs.

(** The code points of an ASCII text. *)
Definition word (s : String.string) : list Z := map (fun a => Z.of_N (Ascii.N_of_ascii a)) (String.list_ascii_of_string s).

Section P.
Variable cw : Z -> Z.
Variable T : Type.
Variable mkraw : T -> T.
Notation do_call := (do_call cw T mkraw).
Notation do_calls := (do_calls cw T mkraw).
Notation ok_of := (ok_of cw mkraw).
Notation screen_of := (screen_of cw mkraw).

Ltac run1 c d G :=
  assert (G := good_writes cw c _ ltac:(cbn; auto) eq_refl); destruct d as [t bk y]; cbn [scr] in *.

Lemma run_one (c : call) (w : list Z) (a : ansi T) (d : dev T) :
  (forall o, do_call c o a d = (let '(ok, o, d) := do_writes cw T [w] o d in (ok, o, a, d))) ->
  good_write cw w -> wf (scr T d) ->
  ok_of c a d = true /\ screen_of c a d = feeds cw (scr T d) w.
Proof using.
  intros E G Hwf. destruct d as [t bk y]. destruct (G t Hwf) as (_ & Q & _).
  unfold TmSpec.ok_of, TmSpec.screen_of. rewrite E, do_writes1. cbn [ask scr].
  rewrite (dfeeds_quiet _ _ _ t bk y Q). auto.
Qed.

Lemma good_of c w ws : plain_call c -> writes c = Some (w :: ws) -> good_write cw w.
Proof using.
  clear T mkraw. intros Hp Hw. assert (G := good_writes cw c _ Hp Hw). inversion G; auto.
Qed.

(* ===== C58: cursor and clear operations ===== *)

(** ClearLines(n), n >= 1: with top = the row n-1 above the cursor (or the first row), every
    cell from row top down is blank, rows above are untouched, the cursor is at the start of
    row top. *)
Theorem C58_clear_lines : forall (a : ansi T) (d : dev T) (n : Z),
  wf (scr T d) -> 0 < n ->
  let t := scr T d in let t' := screen_of (ClearLines n) a d in
  let top := Z.max 0 (cy t - (n - 1)) in
  ok_of (ClearLines n) a d = true /\
  cx t' = 0 /\ cy t' = top /\
  (forall x y, y < top -> grid t' x y = grid t x y) /\
  (forall x y, top <= y < th t -> 0 <= x < tw t -> grid t' x y = erased t /\ tch (grid t' x y) = 32).
Proof using.
  intros a d n Hwf Hn. cbv zeta.
  destruct (f_clear_lines cw (scr T d) n) as (w & Hw & Hf); [apply Hwf|auto|destruct Hwf; lia|].
  destruct (run_one (ClearLines n) w a d) as (H1 & H2); auto.
  { intros o. cbn [TmModel.do_call writes]. rewrite Hw. reflexivity. }
  { apply (good_of (ClearLines n) w []); [exact Logic.I|]. cbn [writes]. rewrite Hw. reflexivity. }
  rewrite H2, Hf. split; auto. cbv zeta. cbn [cx cy erase_where set_grid set_cur grid].
  split; auto. split; auto. split.
  - intros x y Hy. replace (_ || _) with false by lia. reflexivity.
  - intros x y Hy Hx. replace (_ || _) with true by lia. split; reflexivity.
Qed.

(** Counts and distances of zero or less do nothing at all. *)
Theorem C58_non_positive_noop : forall (a : ansi T) (d : dev T) (c : call) (n : Z) o,
  n <= 0 ->
  In c [ClearLines n; MoveCursorUp n; MoveCursorDown n; MoveCursorLeft n; MoveCursorRight n] ->
  do_call c o a d = (true, o, a, d).
Proof using.
  clear. intros a d c n o Hn Hc. unfold In in Hc.
  destruct Hc as [ <- |[ <- |[ <- |[ <- |[ <- |[]]]]]]; cbn [TmModel.do_call writes];
    unfold move_code, clear_lines_code; replace (n <=? 0) with true by lia; reflexivity.
Qed.

(** Relative moves go exactly n cells, stopping at the edge, and change nothing else. *)
Theorem C58_relative_moves : forall (a : ansi T) (d : dev T) (n : Z),
  wf (scr T d) -> 0 < n ->
  let t := scr T d in
  (forall c, In c [MoveCursorUp n; MoveCursorDown n; MoveCursorLeft n; MoveCursorRight n] ->
     ok_of c a d = true /\ same_but_cursor (screen_of c a d) t) /\
  (cx (screen_of (MoveCursorUp n) a d) = cx t /\ cy (screen_of (MoveCursorUp n) a d) = Z.max 0 (cy t - n)) /\
  (cx (screen_of (MoveCursorDown n) a d) = cx t /\ cy (screen_of (MoveCursorDown n) a d) = Z.min (th t - 1) (cy t + n)) /\
  (cx (screen_of (MoveCursorLeft n) a d) = Z.max 0 (cx t - n) /\ cy (screen_of (MoveCursorLeft n) a d) = cy t) /\
  (cx (screen_of (MoveCursorRight n) a d) = Z.min (tw t - 1) (cx t + n) /\ cy (screen_of (MoveCursorRight n) a d) = cy t).
Proof using.
  intros a d n Hwf Hn. cbv zeta.
  assert (HM : forall c f, 64 <= f <= 126 -> writes c = Some (move_code n f) -> plain_call c ->
    (forall o, do_call c o a d = (let '(ok, o, d) := do_writes cw T [csi1 n f] o d in (ok, o, a, d))) ->
    ok_of c a d = true /\ screen_of c a d = csi f [n] false (scr T d)).
  { intros c f Hf Hw Hp Hc.
    assert (Em : move_code n f = [csi1 n f]) by (unfold move_code; replace (n <=? 0) with false by lia; reflexivity).
    destruct (run_one c (csi1 n f) a d) as (H1 & H2); auto.
    { apply (good_of c (csi1 n f) []); auto. rewrite Hw, Em. reflexivity. }
    split; auto. rewrite H2, f_csi1; auto; [apply Hwf|lia]. }
  assert (Em : forall f, move_code n f = [csi1 n f])
    by (intros f; unfold move_code; replace (n <=? 0) with false by lia; reflexivity).
  destruct (HM (MoveCursorUp n) 65) as (U1 & U2);
    [lia|reflexivity|exact Logic.I|intros o; cbn [TmModel.do_call writes]; rewrite Em; reflexivity|].
  destruct (HM (MoveCursorDown n) 66) as (D1 & D2);
    [lia|reflexivity|exact Logic.I|intros o; cbn [TmModel.do_call writes]; rewrite Em; reflexivity|].
  destruct (HM (MoveCursorLeft n) 68) as (L1 & L2);
    [lia|reflexivity|exact Logic.I|intros o; cbn [TmModel.do_call writes]; rewrite Em; reflexivity|].
  destruct (HM (MoveCursorRight n) 67) as (R1 & R2);
    [lia|reflexivity|exact Logic.I|intros o; cbn [TmModel.do_call writes]; rewrite Em; reflexivity|].
  assert (HX : Z.max 1 n = n) by lia.
  unfold csi, nthp in U2, D2, L2, R2. cbn [nth Z.eqb Pos.eqb] in U2, D2, L2, R2. rewrite HX in *.
  rewrite U2, D2, L2, R2. split; [|cbn [cx cy set_cur]; auto].
  intros c Hc. unfold In in Hc.
  destruct Hc as [ <- |[ <- |[ <- |[ <- |[]]]]]; rewrite ?U2, ?D2, ?L2, ?R2; split; auto; repeat split.
Qed.

(** WriteAt(x, y, s): the cells x.. of row y show s, one character per cell, everything else is
    as it was and the cursor stands after the text. *)
Theorem C58_write_at : forall (a : ansi T) (d : dev T) (x y : Z) (s : list Z),
  wf (scr T d) -> narrow_text cw s ->
  let t := scr T d in let n := Z.of_nat (length s) in
  0 <= x < tw t -> 0 <= y < th t -> x + n <= tw t ->
  (forall i, 0 <= i < n -> tkind (grid t (x + i) y) = Single) ->
  let t' := screen_of (WriteAt x y s) a d in
  ok_of (WriteAt x y s) a d = true /\
  (forall i, (i < length s)%nat -> grid t' (x + Z.of_nat i) y = TCell (nth i s 0) (tpn t) Single) /\
  (forall u v, ~ (v = y /\ x <= u < x + n) -> grid t' u v = grid t u v) /\
  cx t' = Z.min (tw t - 1) (x + n) /\ cy t' = y.
Proof using.
  intros a d x y s Hwf Hs t n Hx Hy Hn Hk t'.
  destruct d as [t0 bk tt]. cbn [scr] in *. subst t.
  assert (Hp : plain_call (WriteAt x y s)).
  { cbn. intros Hin. unfold narrow_text in Hs. rewrite Forall_forall in Hs. specialize (Hs _ Hin). lia. }
  assert (G := good_writes cw (WriteAt x y s) _ Hp eq_refl).
  inversion_clear G as [|w0 l0 G1 G2]. inversion_clear G2 as [|w1 l1 G3 _].
  destruct (G1 t0 Hwf) as (W1 & Q1 & D1). destruct (G3 _ W1) as (_ & Q2 & _).
  assert (E : forall A (f : bool * list bool * ansi T * dev T -> A),
    f (do_call (WriteAt x y s) [] a (Dev T t0 bk tt)) =
    f (true, [], a, Dev T (feeds cw (feeds cw t0 (set_pos_code x y)) s) bk tt)).
  { intros A f. f_equal. cbn [TmModel.do_call writes do_writes ask].
    rewrite (dfeeds_quiet cw T _ t0 bk tt Q1), (dfeeds_quiet cw T _ _ bk tt Q2). reflexivity. }
  assert (Eok : ok_of (WriteAt x y s) a (Dev T t0 bk tt) = true).
  { unfold TmSpec.ok_of. rewrite (E _ (fun p => let '(ok, _, _, _) := p in ok)). reflexivity. }
  assert (Esc : t' = feeds cw (feeds cw t0 (set_pos_code x y)) s).
  { unfold t', TmSpec.screen_of. rewrite (E _ (fun p => let '(_, _, _, d) := p in scr T d)). reflexivity. }
  split; auto. rewrite Esc. clear E Eok Esc t'.
  rewrite f_set_pos in * by (try apply Hwf; lia).
  assert (C1 : clampZ 0 (tw t0 - 1) x = x) by (unfold clampZ; lia).
  assert (C2 : clampZ 0 (th t0 - 1) y = y) by (unfold clampZ; lia).
  rewrite C1, C2 in *.
  destruct (feeds_text cw s (set_cur t0 x y false) W1 eq_refl Hs) as (F1 & F2 & F3 & F4).
  { cbn [cx tw set_cur]. exact Hn. }
  { cbn [cx cy grid set_cur]. auto. }
  cbn [cx cy grid set_cur tpn tw] in *. split; [|split; [|split; auto]].
  - intros i Hi. rewrite F4. replace (_ && _ && _) with true by lia.
    replace (Z.to_nat (x + Z.of_nat i - x)) with i by lia. reflexivity.
  - intros u v Huv. rewrite F4. replace (_ && _ && _) with false by lia. reflexivity.
Qed.

(** Clear blanks every cell and homes the cursor. *)
Theorem C58_clear : forall (a : ansi T) (d : dev T), wf (scr T d) ->
  let t := scr T d in let t' := screen_of Clear a d in
  ok_of Clear a d = true /\ cx t' = 0 /\ cy t' = 0 /\
  forall x y, grid t' x y = erased t /\ tch (grid t' x y) = 32.
Proof using.
  intros a d Hwf. cbv zeta.
  destruct (run_one Clear clear_code a d) as (H1 & H2); auto.
  { apply (good_of Clear clear_code []); [exact Logic.I|reflexivity]. }
  rewrite H2, f_clear by apply Hwf. destruct Hwf as [Hp Hx Hy Hs].
  cbn [cx cy set_cur grid erase_where set_grid]. unfold clampZ.
  split; auto. split; [lia|]. split; [lia|]. auto.
Qed.

(** ClearFromCursor blanks exactly the cells from the cursor on and leaves the cursor. *)
Theorem C58_clear_from_cursor : forall (a : ansi T) (d : dev T), wf (scr T d) ->
  let t := scr T d in let t' := screen_of ClearFromCursor a d in
  ok_of ClearFromCursor a d = true /\ cx t' = cx t /\ cy t' = cy t /\
  forall x y, grid t' x y =
    if (cy t <? y) || ((y =? cy t) && (cx t <=? x)) then erased t else grid t x y.
Proof using.
  intros a d Hwf. cbv zeta.
  destruct (run_one ClearFromCursor clear_from_code a d) as (H1 & H2); auto.
  { apply (good_of ClearFromCursor clear_from_code []); [exact Logic.I|reflexivity]. }
  rewrite H2. unfold clear_from_code. rewrite f_J by apply Hwf. auto.
Qed.

(** The hypotheses above hold after any calls whatsoever: the terminal is always between two
    control sequences with the cursor on the screen. *)
Theorem C58_always_ready : forall (t : term) (tio : T) (cs : list call) o oks o' a d,
  wf t -> alt t = false -> Forall plain_call cs ->
  do_calls cs o (newANSI T) (start t tio) = (oks, o', a, d) ->
  wf (scr T d) /\ tw (scr T d) = tw t /\ th (scr T d) = th t.
Proof using.
  intros t tio cs o oks o' a d Hwf Ha Hp E.
  assert (I : inv T mkraw (tw t) (th t) tio (newANSI T) (start t tio)).
  { constructor; cbn; auto. discriminate. }
  assert (I' := inv_run cw T mkraw _ _ _ cs _ _ _ _ _ _ _ I Hp E).
  split; [apply (i_wf _ _ _ _ _ _ _ I')|]. split; [apply (i_w _ _ _ _ _ _ _ I')|apply (i_h _ _ _ _ _ _ _ I')].
Qed.

(* ===== C128: ClearLine ===== *)

(** Proved part: the cursor's row, and only it, is blank; the cursor keeps its row. *)
Theorem C297_clear_line : forall (a : ansi T) (d : dev T), wf (scr T d) ->
  let t := scr T d in let t' := screen_of ClearLine a d in
  ok_of ClearLine a d = true /\ cy t' = cy t /\ cx t' = 0 /\
  forall x y, grid t' x y = if y =? cy t then erased t else grid t x y.
Proof using.
  intros a d Hwf. cbv zeta.
  destruct (run_one ClearLine clear_line_code a d) as (H1 & H2); auto.
  { apply (good_of ClearLine clear_line_code []); [exact Logic.I|reflexivity]. }
  rewrite H2, f_clear_line by apply Hwf. auto.
Qed.

(** Violated: "Cursor position remains unchanged": whenever the cursor is not in the first
    column, it moves there. *)
Theorem C128_cursor_moves_refuted : forall (a : ansi T) (d : dev T), wf (scr T d) ->
  cx (scr T d) <> 0 -> cx (screen_of ClearLine a d) <> cx (scr T d).
Proof using.
  intros a d Hwf Hx. destruct (C297_clear_line a d Hwf) as (_ & _ & H & _). lia.
Qed.

(* ===== C129: ClearLines starting at the cursor ===== *)

(** Proved part: for n = 1 with nothing below the cursor's row it is exactly that row. *)
Theorem C129_last_row_partial : forall (a : ansi T) (d : dev T), wf (scr T d) ->
  let t := scr T d in let t' := screen_of (ClearLines 1) a d in
  cy t = th t - 1 ->
  forall x y, 0 <= x < tw t -> 0 <= y < th t ->
    grid t' x y = if y =? cy t then erased t else grid t x y.
Proof using.
  intros a d Hwf t t' Hl x y Hx Hy.
  destruct (C58_clear_lines a d 1 Hwf ltac:(lia)) as (_ & _ & _ & A & B).
  fold t t' in A, B. destruct (y =? cy t) eqn:E.
  - apply B; auto; lia.
  - apply A. lia.
Qed.

(** Violated: "clears N lines starting from current cursor position".  With n >= 2 and the
    cursor below the first row, the row above the cursor is blanked too; and for every n the
    rows below the n lines are blanked. *)
Theorem C129_clears_upwards_refuted : forall (a : ansi T) (d : dev T) (n x : Z), wf (scr T d) ->
  2 <= n -> 0 < cy (scr T d) -> 0 <= x < tw (scr T d) ->
  grid (screen_of (ClearLines n) a d) x (cy (scr T d) - 1) = erased (scr T d).
Proof using.
  intros a d n x Hwf Hn Hy Hx.
  destruct (C58_clear_lines a d n Hwf ltac:(lia)) as (_ & _ & _ & _ & B).
  apply B; auto. destruct Hwf; lia.
Qed.
Theorem C129_clears_below_refuted : forall (a : ansi T) (d : dev T) (n x y : Z), wf (scr T d) ->
  1 <= n -> cy (scr T d) + n <= y < th (scr T d) -> 0 <= x < tw (scr T d) ->
  grid (screen_of (ClearLines n) a d) x y = erased (scr T d).
Proof using.
  intros a d n x y Hwf Hn Hy Hx.
  destruct (C58_clear_lines a d n Hwf ltac:(lia)) as (_ & _ & _ & _ & B).
  apply B; auto. destruct Hwf; lia.
Qed.

(* ===== C130: SaveCursorPosition / RestoreCursorPosition ===== *)

(** Proved part, one level: after Save, any calls that do not Save again nor switch screens,
    then Restore, the cursor is back where it was saved. *)
Theorem C268_one_level : forall (t : term) (tio : T) cs1 o1 oks1 o2 a1 d1 a2 d2 o3 cs2 oks2 o4 a3 d3 o5 a4 d4,
  wf t -> alt t = false -> Forall plain_call cs1 -> Forall plain_call cs2 ->
  do_calls cs1 o1 (newANSI T) (start t tio) = (oks1, o2, a1, d1) ->
  do_call SaveCursorPosition o2 a1 d1 = (true, o3, a2, d2) ->
  ~ In SaveCursorPosition cs2 -> ~ In EnterAltScreen cs2 -> ~ In ExitAltScreen cs2 ->
  do_calls cs2 o3 a2 d2 = (oks2, o4, a3, d3) ->
  do_call RestoreCursorPosition o4 a3 d3 = (true, o5, a4, d4) ->
  cx (scr T d4) = cx (scr T d1) /\ cy (scr T d4) = cy (scr T d1).
Proof using.
  intros t tio cs1 o1 oks1 o2 a1 d1 a2 d2 o3 cs2 oks2 o4 a3 d3 o5 a4 d4 Hwf Ha P1 P2 E1 ES N1 _ _ E2 ER.
  assert (I : inv T mkraw (tw t) (th t) tio (newANSI T) (start t tio)).
  { constructor; cbn; auto. discriminate. }
  assert (I1 := inv_run cw T mkraw _ _ _ cs1 _ _ _ _ _ _ _ I P1 E1).
  assert (I2 := inv_step cw T mkraw _ _ _ SaveCursorPosition _ _ _ _ _ _ _ I1 Logic.I ES).
  assert (I3 := inv_run cw T mkraw _ _ _ cs2 _ _ _ _ _ _ _ I2 P2 E2).
  assert (S1 : saved (scr T d2) = (cx (scr T d1), cy (scr T d1))).
  { cbn [TmModel.do_call writes] in ES. rewrite do_writes1 in ES. destruct d1 as [t1 b1 y1].
    assert (W := i_wf _ _ _ _ _ _ _ I1). cbn [scr] in *.
    destruct (good_of SaveCursorPosition [27; 91; 115] [] Logic.I eq_refl t1 W) as (_ & Q & _).
    rewrite (dfeeds_quiet cw T _ t1 b1 y1 Q), f_s in ES by apply W.
    destruct (ask o2) as [[|] o6]; [|discriminate]. injection ES as <- <- <-. reflexivity. }
  assert (S2 := sv_run cw T mkraw _ _ _ cs2 _ _ _ _ _ _ _ I2 P2 N1 E2).
  rewrite S1 in S2.
  cbn [TmModel.do_call writes] in ER. rewrite do_writes1 in ER. destruct d3 as [t3 b3 y3].
  assert (W := i_wf _ _ _ _ _ _ _ I3). cbn [scr] in *.
  destruct (good_of RestoreCursorPosition [27; 91; 117] [] Logic.I eq_refl t3 W) as (_ & Q & _).
  rewrite (dfeeds_quiet cw T _ t3 b3 y3 Q), f_u in ER by apply W.
  destruct (ask o4) as [[|] o6]; [|discriminate]. injection ER as <- <- <-.
  cbn [scr cx cy set_cur]. rewrite S2. auto.
Qed.

(** Violated: the positions do not form a stack.  Save at (1,0), save at (2,0), restore,
    restore: the cursor is at (2,0), not back at (1,0). *)
Theorem C130_not_a_stack_refuted : forall (tio : T) (b : bool),
  let '(oks, _, _, d) := do_calls
     [SetCursorPosition 1 0; SaveCursorPosition; SetCursorPosition 2 0; SaveCursorPosition;
      RestoreCursorPosition; RestoreCursorPosition] [] (newANSI T)
     (start (blank_term 10 5 b) tio) in
  forallb (fun k => k) oks = true /\ cx (scr T d) = 2.
Proof using. intros tio b. vm_compute. auto. Qed.

(* ===== C131: SetCursorPosition ===== *)

(** Proved part: a position on the screen is reached exactly and nothing else changes. *)
Theorem C269_in_bounds : forall (a : ansi T) (d : dev T) (x y : Z), wf (scr T d) ->
  let t := scr T d in let t' := screen_of (SetCursorPosition x y) a d in
  0 <= x < tw t -> 0 <= y < th t ->
  ok_of (SetCursorPosition x y) a d = true /\ cx t' = x /\ cy t' = y /\ same_but_cursor t' t.
Proof using.
  intros a d x y Hwf t t' Hx Hy.
  destruct (run_one (SetCursorPosition x y) (set_pos_code x y) a d) as (H1 & H2); auto.
  { apply (good_of (SetCursorPosition x y) (set_pos_code x y) []); [exact Logic.I|reflexivity]. }
  unfold t'. rewrite H2, f_set_pos by (try apply Hwf; lia). fold t. cbn [cx cy set_cur].
  unfold clampZ. split; auto. split; [lia|]. split; [lia|]. repeat split.
Qed.

(** Violated: "Returns error if position is out of bounds".  No position is ever reported;
    beyond the edge the cursor silently lands on the edge, an existing, different cell. *)
Theorem C131_out_of_bounds_silent_refuted : forall (a : ansi T) (d : dev T) (x y : Z), wf (scr T d) ->
  let t := scr T d in let t' := screen_of (SetCursorPosition x y) a d in
  ok_of (SetCursorPosition x y) a d = true /\
  (tw t <= x -> 0 <= y -> cx t' = tw t - 1).
Proof using.
  intros a d x y Hwf t t'.
  destruct (run_one (SetCursorPosition x y) (set_pos_code x y) a d) as (H1 & H2); auto.
  { apply (good_of (SetCursorPosition x y) (set_pos_code x y) []); [exact Logic.I|reflexivity]. }
  split; auto. intros Hx Hy. unfold t'. destruct (wf_x _ Hwf) as [Wx1 Wx2]. fold t in Wx1, Wx2.
  rewrite H2, f_set_pos by (try apply Hwf; lia). fold t. cbn [cx cy set_cur]. unfold clampZ. lia.
Qed.

(* ===== C132: modes ===== *)

(** For every sequence of calls and every pattern of failures: IsInAltScreen tells what the
    terminal shows; out of raw mode the tty has exactly its original settings, in raw mode it
    has the raw version of them; the cursor is visible unless the last successful Hide/Show
    was Hide. *)
Theorem C132_modes_match_device : forall (t : term) (tio : T) (cs : list call) o oks o' a d,
  wf t -> alt t = false -> Forall plain_call cs ->
  do_calls cs o (newANSI T) (start t tio) = (oks, o', a, d) ->
  IsInAltScreen a = alt (scr T d) /\
  tty T d = (if IsInRawMode a then mkraw tio else tio) /\
  curvis (scr T d) = vis_after (curvis t) (combine cs oks).
Proof using.
  intros t tio cs o oks o' a d Hwf Ha Hp E.
  assert (I : inv T mkraw (tw t) (th t) tio (newANSI T) (start t tio)).
  { constructor; cbn; auto. discriminate. }
  assert (I' := inv_run cw T mkraw _ _ _ cs _ _ _ _ _ _ _ I Hp E).
  split; [symmetry; apply (i_alt _ _ _ _ _ _ _ I')|]. split; [apply (i_tty _ _ _ _ _ _ _ I')|].
  clear I'. change (curvis t) with (curvis (scr T (start t tio))).
  revert E I. generalize (start t tio), (newANSI T), (tw t), (th t). clear Hwf Ha t.
  intros d0 a0 w h. revert o oks d0 a0.
  induction cs as [|c cs IH]; intros o oks d0 a0 E I; cbn [TmModel.do_calls] in E.
  - injection E as <- <- <- <-. reflexivity.
  - inversion_clear Hp as [|? ? H1 H2].
    destruct (do_call c o a0 d0) as [[[k o1] a1] d1] eqn:E1.
    destruct (do_calls cs o1 a1 d1) as [[[ks o2] a2] d2] eqn:E2. injection E as <- <- <- <-.
    assert (I1 := inv_step cw T mkraw _ _ _ c _ _ _ _ _ _ _ I H1 E1).
    rewrite (IH H2 _ _ _ _ E2 I1).
    unfold vis_after. cbn [combine fold_left].
    rewrite (vis_step cw T mkraw _ _ _ c _ _ _ _ _ _ _ I H1 E1).
    destruct c; try reflexivity; destruct k; reflexivity.
Qed.

(** Entering a mode twice, or leaving it when not in it, is an error and touches nothing. *)
Theorem C132_double_calls_rejected : forall o (a : ansi T) (d : dev T),
  (IsInAltScreen a = true -> do_call EnterAltScreen o a d = (false, o, a, d)) /\
  (IsInAltScreen a = false -> do_call ExitAltScreen o a d = (false, o, a, d)) /\
  (IsInRawMode a = true -> do_call EnterRawMode o a d = (false, o, a, d)) /\
  (IsInRawMode a = false -> do_call ExitRawMode o a d = (false, o, a, d)).
Proof using.
  clear. intros o a d. unfold IsInAltScreen, IsInRawMode. cbn [TmModel.do_call].
  repeat split; intros ->; reflexivity.
Qed.

(** What was on the screen, and the cursor, come back when the alternate screen is left, no
    matter what was done in between. *)
Theorem C132_alt_screen_restores : forall (t : term) (tio : T) cs1 o1 oks1 o2 a1 d1 o3 a2 d2 cs2 oks2 o4 a3 d3 o5 a4 d4,
  wf t -> alt t = false -> Forall plain_call cs1 -> Forall plain_call cs2 ->
  do_calls cs1 o1 (newANSI T) (start t tio) = (oks1, o2, a1, d1) ->
  do_call EnterAltScreen o2 a1 d1 = (true, o3, a2, d2) ->
  ~ In ExitAltScreen cs2 -> do_calls cs2 o3 a2 d2 = (oks2, o4, a3, d3) ->
  do_call ExitAltScreen o4 a3 d3 = (true, o5, a4, d4) ->
  same_view (scr T d4) (scr T d1) /\ IsInAltScreen a4 = false.
Proof using.
  intros t tio cs1 o1 oks1 o2 a1 d1 o3 a2 d2 cs2 oks2 o4 a3 d3 o5 a4 d4 Hwf Ha P1 P2 E1 EE N E2 EX.
  assert (I : inv T mkraw (tw t) (th t) tio (newANSI T) (start t tio)).
  { constructor; cbn; auto. discriminate. }
  assert (I1 := inv_run cw T mkraw _ _ _ cs1 _ _ _ _ _ _ _ I P1 E1).
  assert (I2 := inv_step cw T mkraw _ _ _ EnterAltScreen _ _ _ _ _ _ _ I1 Logic.I EE).
  assert (I3 := inv_run cw T mkraw _ _ _ cs2 _ _ _ _ _ _ _ I2 P2 E2).
  assert (HB : exists b, back T d2 = Some b /\ same_view b (scr T d1) /\ inAlt T a2 = true).
  { cbn [TmModel.do_call] in EE. destruct (inAlt T a1) eqn:Ea; [discriminate|].
    rewrite do_writes1 in EE. destruct (ask o2) as [[|] o6]; [|discriminate].
    destruct d1 as [t1 b1 y1].
    destruct (d_alt_on cw T t1 b1 y1 (i_wf _ _ _ _ _ _ _ I1)) as (b & Eb & V & _).
    { assert (X := i_alt _ _ _ _ _ _ _ I1). cbn [scr] in X. congruence. }
    rewrite Eb in EE. injection EE as <- <- <-. exists b. auto. }
  destruct HB as (b & Hb & V & Ha2).
  destruct (back_run cw T mkraw _ _ _ cs2 _ _ _ _ _ _ _ I2 P2 N Ha2 E2) as (B3 & Ha3).
  cbn [TmModel.do_call] in EX. rewrite Ha3 in EX. cbn [negb] in EX. rewrite do_writes1 in EX.
  destruct (ask o4) as [[|] o6]; [|discriminate]. destruct d3 as [t3 b3 y3]. cbn [back] in B3.
  rewrite Hb in B3. subst b3.
  rewrite d_alt_off in EX.
  2:{ apply (i_wf _ _ _ _ _ _ _ I3). }
  2:{ assert (X := i_alt _ _ _ _ _ _ _ I3). cbn [scr] in X. congruence. }
  injection EX as <- <- <-. split; [|reflexivity]. exact V.
Qed.

(** Leaving raw mode restores the very settings found when it was entered. *)
Theorem C132_raw_mode_restores : forall o1 (a : ansi T) (d : dev T) o2 a1 d1 o3 o4 a2 d2,
  do_call EnterRawMode o1 a d = (true, o2, a1, d1) ->
  do_call ExitRawMode o3 a1 d1 = (true, o4, a2, d2) ->
  tty T d2 = tty T d /\ IsInRawMode a2 = false.
Proof using.
  clear. intros o1 a d o2 a1 d1 o3 o4 a2 d2 E1 E2. cbn [TmModel.do_call] in E1.
  destruct (inRaw T a); [discriminate|]. destruct (ask o1) as [[|] o6]; [|discriminate].
  injection E1 as <- <- <-. cbn [TmModel.do_call inRaw orig negb] in E2.
  destruct (ask o3) as [[|] o5]; [|discriminate]. injection E2 as <- <- <-. auto.
Qed.
End P.

(* ===== C133: ColorDepth ===== *)

Open Scope string_scope. Open Scope list_scope. Open Scope Z_scope.
(** The value is one of the three documented ones: true colour exactly when COLORTERM says so, 256 exactly for the three
    listed terminal names otherwise. *)
Theorem C298_color_depth : forall (ct te : list Z),
  let truecolor := ct = word "truecolor" \/ ct = word "24bit" in
  let listed := In te [word "xterm-256color"; word "screen-256color"; word "tmux-256color"] in
  (ColorDepth ct te = 16777216 <-> truecolor) /\ (ColorDepth ct te = 256 <-> ~ truecolor /\ listed) /\ (ColorDepth ct te = 16 <-> ~ truecolor /\ ~ listed) /\
  (SupportsTrueColor ct te = true <-> truecolor).
Proof.
  assert (HE : forall a b, eqs a b = true <-> a = b).
  { intros a b. unfold eqs. destruct (list_eq_dec Z.eq_dec a b); split; auto; discriminate. }
  intros ct te truecolor listed. unfold SupportsTrueColor, ColorDepth.
  assert (H1 : eqs ct s_truecolor || eqs ct s_24bit = true <-> truecolor) by (rewrite orb_true_iff, !HE; reflexivity).
  assert (H2 : eqs te (s_xterm_ ++ s_256color) || eqs te (s_screen_ ++ s_256color) || eqs te (s_tmux_ ++ s_256color) = true <-> listed).
  { rewrite !orb_true_iff, !HE. unfold listed. change (word "xterm-256color") with (s_xterm_ ++ s_256color). change (word "screen-256color") with (s_screen_ ++ s_256color).
    change (word "tmux-256color") with (s_tmux_ ++ s_256color). cbn [In]. intuition congruence. }
  destruct (eqs ct s_truecolor || eqs ct s_24bit).
  - assert (truecolor) by (apply H1; reflexivity). clear HE H1 H2. clearbody truecolor listed. cbn. intuition discriminate.
  - assert (~ truecolor) by (intros K; apply H1 in K; discriminate).
    destruct (_ || _ || _).
    + assert (listed) by (apply H2; reflexivity). clear HE H1 H2. clearbody truecolor listed. cbn. intuition discriminate.
    + assert (~ listed) by (intros K; apply H2 in K; discriminate). clear HE H1 H2. clearbody truecolor listed. cbn. intuition discriminate.
Qed.
Example C298_ex : map (ColorDepth []) [word "xterm-256color"; word "xterm"; word "tmux-256color"] = [256; 16; 256] /\ ColorDepth (word "24bit") [] = 16777216.
Proof. vm_compute. auto. Qed.

(** Violated: "TERM contains 256color -> 256".  Any other name with that suffix is taken for a 16-colour terminal. *)
Theorem C133_contains_256color_refuted : ColorDepth [] (word "rxvt-256color") = 16.
Proof. reflexivity. Qed.
Close Scope string_scope.

(** The hypotheses are met by ordinary terminals. *)
Example tm_ready : wf (blank_term 80 24 true).
Proof. constructor; cbn; try lia; auto. Qed.
Example tm_run :
  let '(oks, _, a, d) := do_calls (fun _ => 1) bool (fun _ => true)
    [EnterRawMode; EnterAltScreen; HideCursor; WriteAt 3 2 [104; 105]; ClearLines 2; EnterAltScreen;
     ExitAltScreen; ShowCursor; ExitRawMode] [true; false] (newANSI bool) (start (blank_term 10 5 true) false) in
  oks = [true; false; true; true; true; true; true; true; true] /\
  IsInAltScreen a = false /\ tty bool d = false /\ curvis (scr bool d) = true.
Proof. vm_compute. auto. Qed.
Example tm_narrow : narrow_text (fun _ => 1) [104; 105].
Proof. repeat constructor; lia. Qed.

Print Assumptions C58_clear_lines. Print Assumptions C58_non_positive_noop. Print Assumptions C58_relative_moves. Print Assumptions C58_write_at.
Print Assumptions C58_clear. Print Assumptions C58_clear_from_cursor. Print Assumptions C58_always_ready. Print Assumptions C297_clear_line.
Print Assumptions C128_cursor_moves_refuted. Print Assumptions C129_last_row_partial. Print Assumptions C129_clears_upwards_refuted. Print Assumptions C129_clears_below_refuted.
Print Assumptions C268_one_level. Print Assumptions C130_not_a_stack_refuted. Print Assumptions C269_in_bounds. Print Assumptions C131_out_of_bounds_silent_refuted.
Print Assumptions C132_modes_match_device. Print Assumptions C132_double_calls_rejected. Print Assumptions C132_alt_screen_restores. Print Assumptions C132_raw_mode_restores.
Print Assumptions C298_color_depth. Print Assumptions C133_contains_256color_refuted.
