From Verif Require Import Prelude Utf8 PgModel.
From Coq Require String Ascii.

Lemma clamp_rng v : 0 <= clamp_pct v <= 100.
Proof. unfold clamp_pct. destruct (v <? 0) eqn:?; [lia|]. destruct (100 <? v) eqn:?; lia. Qed.
Lemma wrap_id z : int64 z -> wrap64 z = z.
Proof. unfold int64, wrap64. intros H. rewrite Z.mod_small; lia. Qed.
Lemma bsteps_ok ops : forall b, 0 <= pct b <= 100 -> 0 <= pct (bsteps ops b) <= 100 /\ width (bsteps ops b) = width b.
Proof.
  induction ops as [|o ops IH]; intros b H; [auto|]. change (bsteps (o :: ops) b) with (bsteps ops (bstep b o)).
  destruct (IH (bstep b o)) as [I1 I2]; [destruct o; cbn [bstep pct set_pct]; auto; apply clamp_rng|]. split; auto. rewrite I2. destruct o; reflexivity.
Qed.
(* ---------- C40 ---------- *)
(** Whatever is set, added or subtracted, the percentage stays within 0..100, and the width is what was asked for (at least 1). *)
Theorem C40_percentage_in_range : forall w p ops, let b := bsteps ops (new_bar_pct w p) in
  0 <= pct b <= 100 /\ width b = Z.max 1 w /\ (complete b = true <-> pct b = 100).
Proof.
  intros w p ops. destruct (bsteps_ok ops (new_bar_pct w p)) as [I1 I2]; [apply clamp_rng|]. cbv zeta. split; auto. split; [rewrite I2; cbn; destruct (w <? 1) eqn:?; lia|].
  unfold complete. apply Z.eqb_eq.
Qed.
(** SetProgress shows the nearest value in 0..100, increments and decrements add and subtract within it. *)
Definition moderate (d : Z) : Prop := -9223372036854775000 <= d <= 9223372036854775000.
Theorem C40_updates : forall b d, 0 <= pct b <= 100 ->
  pct (bstep b (BSet d)) = Z.max 0 (Z.min 100 d) /\
  (moderate d -> pct (bstep b (BInc d)) = Z.max 0 (Z.min 100 (pct b + d)) /\ pct (bstep b (BDec d)) = Z.max 0 (Z.min 100 (pct b - d))).
Proof.
  intros b d H. assert (C : forall v, clamp_pct v = Z.max 0 (Z.min 100 v)) by (intros v; unfold clamp_pct; destruct (v <? 0) eqn:?; [lia|]; destruct (100 <? v) eqn:?; lia).
  cbn [bstep pct set_pct]. split; auto. intros M. unfold moderate in M. rewrite !wrap_id by (unfold int64; lia). auto.
Qed.
(** The bar drawn: the floor of width * percentage / 100 filled cells, then empty ones, [width] in all; empty exactly at
    percentages too small for one cell, in particular at 0, full exactly at 100. *)
Definition sane_width (w : Z) : Prop := w <= 90071992547409920.
Lemma filled_eq w p : 1 <= w -> sane_width w -> 0 <= p <= 100 -> filled_width w p = w * p / 100.
Proof.
  intros W SW P. unfold sane_width in SW. unfold filled_width. replace (w <=? 0) with false by lia. destruct (p <=? 0) eqn:E1; [assert (p = 0) by lia; subst; rewrite Z.mul_0_r; reflexivity|].
  destruct (100 <=? p) eqn:E2; [assert (p = 100) by lia; subst; rewrite Z.div_mul; lia|]. rewrite wrap_id by (unfold int64; nia). rewrite Z.quot_div_nonneg by nia. f_equal. lia.
Qed.
(** A character as it is printed: itself, or U+FFFD if it is not a Unicode character. *)
Definition printed (c d : Z) : Prop := (scalar c /\ d = c) \/ (~ scalar c /\ d = 65533).
Lemma rune_str_printed c : printed c (rune_str c).
Proof. unfold printed, rune_str. destruct (scalarb c) eqn:E; [left; split; auto; now apply scalarb_spec|right; split; auto; intros X; apply scalarb_spec in X; congruence]. Qed.
Theorem C40_bar_geometry : forall w p ops, sane_width w -> let b := bsteps ops (new_bar_pct w p) in
  let f := width b * pct b / 100 in
  0 <= f <= width b /\ (f = width b <-> pct b = 100) /\ (pct b = 0 -> f = 0) /\ (forall p', pct b <= p' -> f <= width b * p' / 100) /\
  exists fc ec, printed (fillc b) fc /\ printed (emptyc b) ec /\
  render_bar b = Some ((match blabel b with [] => [] | l => l ++ [32] end) ++ repeat fc (Z.to_nat f) ++ repeat ec (Z.to_nat (width b - f)) ++
    (if show b then 32 :: format_pct (pct b) else [])).
Proof.
  intros w p ops SW b f. destruct (C40_percentage_in_range w p ops) as (P & W & _). fold b in P, W. assert (W1 : 1 <= width b) by lia. assert (SWb : sane_width (width b)) by (unfold sane_width in *; lia).
  assert (F : 0 <= f <= width b) by (subst f; split; [apply Z.div_pos; nia|apply Z.div_le_upper_bound; nia]).
  split; auto. split.
  { split; intros H; [|subst f; rewrite H, Z.div_mul; lia]. destruct (Z.eq_dec (pct b) 100); auto. exfalso. assert (f < width b) by (subst f; apply Z.div_lt_upper_bound; nia). lia. }
  split; [intros H; subst f; rewrite H, Z.mul_0_r; reflexivity|]. split; [intros p' H; subst f; apply Z.div_le_mono; nia|].
  exists (rune_str (fillc b)), (rune_str (emptyc b)). split; [apply rune_str_printed|]. split; [apply rune_str_printed|].
  unfold render_bar. cbv zeta. rewrite (filled_eq _ _ W1 SWb P). fold f. replace (_ || _) with false by lia. f_equal.
  destruct (blabel b) as [|c l]; destruct (show b); cbn [app join_sp]; rewrite <- ?app_assoc, ?app_nil_r; reflexivity.
Qed.
(** Every other call changes only what it names. *)
Theorem C40_calls : forall b,
  (forall p, let b' := bstep b (BSet p) in width b' = width b /\ fillc b' = fillc b /\ emptyc b' = emptyc b /\ show b' = show b /\ blabel b' = blabel b) /\
  (forall d, let b' := bstep b (BInc d) in width b' = width b /\ fillc b' = fillc b /\ emptyc b' = emptyc b /\ show b' = show b /\ blabel b' = blabel b) /\
  (forall d, let b' := bstep b (BDec d) in width b' = width b /\ fillc b' = fillc b /\ emptyc b' = emptyc b /\ show b' = show b /\ blabel b' = blabel b) /\
  (forall c, bstep b (BFill c) = Bar (pct b) (width b) c (emptyc b) (show b) (blabel b)) /\
  (forall c, bstep b (BEmpty c) = Bar (pct b) (width b) (fillc b) c (show b) (blabel b)) /\
  (forall v, bstep b (BShow v) = Bar (pct b) (width b) (fillc b) (emptyc b) v (blabel b)) /\
  (forall l, bstep b (BLabel l) = Bar (pct b) (width b) (fillc b) (emptyc b) (show b) l).
Proof. intros b. repeat split. Qed.
(** A new bar: the given percentage (0 for NewBar) brought into range, block characters, no percentage text, no label. *)
Theorem C40_new : forall w p, new_bar w = Bar 0 (Z.max 1 w) 9608 9617 false [] /\ new_bar_pct w p = Bar (Z.max 0 (Z.min 100 p)) (Z.max 1 w) 9608 9617 false [].
Proof.
  intros w p. unfold new_bar_pct, set_pct, new_bar, clamp_pct. cbn [width fillc emptyc show blabel]. split; f_equal; destruct (w <? 1) eqn:?; try lia; destruct (p <? 0) eqn:?; try lia; destruct (100 <? p) eqn:?; lia.
Qed.
(** The percentage text is the percentage in three decimal digits and a percent sign. *)
Theorem C40_percent_text : forall p, 0 <= p <= 100 -> exists a b c, format_pct p = [48 + a; 48 + b; 48 + c; 37] /\ 0 <= a <= 9 /\ 0 <= b <= 9 /\ 0 <= c <= 9 /\ 100 * a + 10 * b + c = p.
Proof.
  intros p H. unfold format_pct. rewrite !Z.rem_mod_nonneg, !Z.quot_div_nonneg by (try apply Z.quot_pos; lia).
  exists (p / 100 mod 10), (p / 10 mod 10), (p mod 10). split; [reflexivity|].
  pose proof (Z.div_mod p 10 ltac:(lia)). pose proof (Z.div_mod (p / 10) 10 ltac:(lia)). pose proof (Z.mod_pos_bound p 10 ltac:(lia)). pose proof (Z.mod_pos_bound (p / 10) 10 ltac:(lia)).
  assert (p / 10 / 10 = p / 100) by (rewrite Z.div_div by lia; reflexivity). assert (0 <= p / 100 <= 1) by (split; [apply Z.div_pos; lia|apply Z.lt_succ_r; apply Z.div_lt_upper_bound; lia]).
  rewrite (Z.mod_small (p / 100) 10) by lia. lia.
Qed.
Example C40_ex : render_bar (bsteps [BInc 30; BDec 5; BShow true; BLabel [97]] (new_bar_pct 8 50)) = Some ([97; 32] ++ repeat 9608 6 ++ repeat 9617 2 ++ [32; 48; 55; 53; 37]).
Proof. reflexivity. Qed.
(* ---------- C86 ---------- *)
(** Huge deltas wrap: adding the largest int at 1 percent gives 0 instead of 100. *)
Theorem C86_increment_overflows_refuted : pct (bstep (new_bar_pct 10 1) (BInc 9223372036854775807)) = 0 /\ pct (bstep (new_bar_pct 10 0) (BDec (-9223372036854775808))) = 0.
Proof. split; reflexivity. Qed.
Theorem C292_saturates : forall b d, 0 <= pct b <= 100 -> moderate d -> pct (bstep b (BInc d)) = Z.max 0 (Z.min 100 (pct b + d)) /\ pct (bstep b (BDec d)) = Z.max 0 (Z.min 100 (pct b - d)).
Proof. intros b d H M. now apply C40_updates. Qed.
Example C86_ex : moderate 1000000 /\ moderate (-5). Proof. unfold moderate. lia. Qed.
(* ---------- C87 ---------- *)
Definition good_style (s : style) : Prop := frames s <> [] /\ 0 < fps s.
Theorem C87_style_always_good : forall fr f, good_style (new_style fr f).
Proof. intros fr f. unfold good_style, new_style. cbn [frames fps]. split; [destruct fr; discriminate|destruct (f <=? 0) eqn:?; lia]. Qed.
Fixpoint ticks (n : nat) (s : spinner) : spinner := match n with O => s | S n => ticks n (fst (supdate s STick)) end.
(** After n ticks the spinner shows frame n modulo the number of frames, the label unchanged; each tick asks for exactly one
    more; other messages change nothing and ask for none. *)
Theorem C87_spinner_cycles : forall st n, good_style st -> forall l,
  let s := ticks n (Spin st 0 l) in
  nth_error (frames st) (n mod length (frames st)) = Some (get_frame (sstyle s) (frame s)) /\ sstyle s = st /\ slabel s = l /\
  snd (supdate s STick) = 1%nat /\ supdate s SOther = (s, 0%nat).
Proof.
  intros st n [N _] l. cbv zeta. assert (Lp : (0 < length (frames st))%nat) by (destruct (frames st); cbn; [congruence|lia]).
  assert (G : forall n i, 0 <= i < Z.of_nat (length (frames st)) -> ticks n (Spin st i l) = Spin st ((i + Z.of_nat n) mod Z.of_nat (length (frames st))) l).
  { clear n. induction n as [|n IH]; intros i H; cbn [ticks]; [rewrite Z.add_0_r, Z.mod_small; auto|]. cbn [supdate fst]. unfold next_frame. cbn [frame sstyle slabel].
    rewrite Z.rem_mod_nonneg by lia. rewrite IH by (apply Z.mod_pos_bound; lia). rewrite Zplus_mod_idemp_l. do 2 f_equal. lia. }
  rewrite G by lia. cbn [sstyle frame slabel supdate snd]. split; [|auto]. rewrite Z.add_0_l. rewrite <- Nat2Z.inj_mod. unfold get_frame. replace (_ =? 0) with false by lia. cbv zeta.
  assert (B : (n mod length (frames st) < length (frames st))%nat) by (apply Nat.mod_upper_bound; lia). replace (_ <? 0) with false by lia.
  rewrite Z.rem_small by lia. rewrite Nat2Z.id. apply nth_error_nth'. auto.
Qed.
(** Label and ticks do not disturb each other, and View is the frame, then a space and the label if there is one. *)
Theorem C87_label_and_view : forall s l,
  sstyle (with_slabel s l) = sstyle s /\ frame (with_slabel s l) = frame s /\ slabel (with_slabel s l) = l /\ next_frame (with_slabel s l) = with_slabel (next_frame s) l /\
  sview s = get_frame (sstyle s) (frame s) ++ match slabel s with [] => [] | x => 32 :: x end.
Proof. intros s l. repeat split. unfold sview. destruct (slabel s); [now rewrite app_nil_r|reflexivity]. Qed.
(** Spinner by name: every name, known or not, gives at least one frame; the frames of one style are all of the same number of
    characters and free of control characters, so the text after a spinner does not move; ticks come fps times a second. An unknown name gives dots. *)
Definition even_frames (s : style) : Prop := exists k, (0 < k)%nat /\ Forall (fun f => length f = k /\ Forall (fun c => 32 <= c) f) (frames s).
Lemma registry_good : Forall (fun p => good_style (snd p) /\ even_frames (snd p) /\ fps (snd p) <= 12) registry.
Proof.
  unfold registry. repeat (apply Forall_cons; [cbn [snd new_style]; split; [split; [discriminate|reflexivity]|split; [|discriminate]]; unfold even_frames; cbn [frames new_style];
    (exists 1%nat + exists 3%nat); split; [lia|]; repeat constructor; discriminate|]). constructor.
Qed.
Theorem C87_named : forall n, let s := spinner_named n in
  good_style (sstyle s) /\ even_frames (sstyle s) /\ frame s = 0 /\ slabel s = [] /\ 0 < tick_ns s <= 1000000000 /\ 1000000000 - fps (sstyle s) < tick_ns s * fps (sstyle s) <= 1000000000 /\
  (~ In n (map fst registry) -> sstyle s = dots).
Proof.
  intros n s. assert (G : good_style (sstyle s) /\ even_frames (sstyle s) /\ fps (sstyle s) <= 12).
  { subst s. unfold spinner_named, new_spinner, get_style. cbn [sstyle]. pose proof registry_good as R. destruct (find _ registry) as [p|] eqn:F; [apply find_some in F as [I _]; rewrite Forall_forall in R; exact (R p I)|].
    exact (Forall_inv R). }
  destruct G as (G1 & G2 & G3). split; [exact G1|]. split; [exact G2|]. split; [reflexivity|]. split; [reflexivity|]. destruct G1 as [_ G1]. unfold tick_ns.
  rewrite Z.quot_div_nonneg by lia. pose proof (Z.div_mod 1000000000 (fps (sstyle s)) ltac:(lia)). pose proof (Z.mod_pos_bound 1000000000 (fps (sstyle s)) ltac:(lia)). split; [nia|]. split; [nia|].
  intros N. subst s. unfold spinner_named, new_spinner, get_style. cbn [sstyle]. destruct (find _ registry) as [p|] eqn:F; [|reflexivity]. exfalso. apply find_some in F as [I F]. apply list_eqb_eq in F. apply N. rewrite <- F. now apply in_map.
Qed.
(** The fifteen documented names. *)
Import String.StringSyntax.
Definition codes (s : String.string) : list Z := map (fun a => Z.of_nat (Ascii.nat_of_ascii a)) (String.list_ascii_of_string s).
Open Scope string_scope.
Definition documented : list (list Z) := [codes "dots"; codes "line"; codes "arrow"; codes "circle"; codes "bounce"; codes "dot-pulse"; codes "grow-vertical"; codes "grow-horizontal"; codes "box-bounce"; codes "simple-dots"; codes "clock"; codes "earth"; codes "moon"; codes "toggle"; codes "hamburger"].
Close Scope string_scope.
Theorem C87_known_names : NoDup documented /\ map fst registry = documented /\ forall n st, In (n, st) registry -> sstyle (spinner_named n) = st.
Proof.
  assert (ND : NoDup (map fst registry)).
  { assert (D : forall l : list (list Z), (fix nd (l : list (list Z)) : bool := match l with [] => true | x :: r => negb (existsb (list_eqb x) r) && nd r end) l = true -> NoDup l).
    { induction l as [|x r IH]; [constructor|]. intros H. apply andb_true_iff in H as [H1 H2]. constructor; [|now apply IH]. intros I. apply negb_true_iff in H1.
      assert (X : existsb (list_eqb x) r = true) by (apply existsb_exists; exists x; split; [exact I|apply list_eqb_refl]). congruence. }
    apply D. vm_compute. reflexivity. }
  split; [exact ND|]. split; [vm_compute; reflexivity|]. intros n st I. unfold spinner_named, new_spinner, get_style. cbn [sstyle]. destruct (find _ registry) as [p|] eqn:F.
  - apply find_some in F as [I2 F]. apply list_eqb_eq in F. destruct p as [n' st']. cbn [fst snd] in *. subst n'. clear - ND I I2. induction registry as [|[a b] r IH]; [destruct I|]. cbn [map fst] in ND. inversion ND as [|? ? N ND']; subst.
    destruct I as [I|I]; destruct I2 as [I2|I2]; [congruence|inversion I; subst; destruct N; apply (in_map fst) in I2; exact I2|inversion I2; subst; destruct N; apply (in_map fst) in I; exact I|now apply IH].
  - exfalso. apply (find_none _ _ F) in I. cbn [fst] in I. rewrite list_eqb_refl in I. discriminate.
Qed.
Example C87_ex : good_style dots /\ sview (ticks 12 (new_spinner dots)) = [10297]. Proof. split; [split; [discriminate|reflexivity]|reflexivity]. Qed.
(* ---------- C88 ---------- *)
Theorem C88_custom_frames_ignored_refuted : forall fr f, sstyle (new_spinner_custom fr f) = dots.
Proof. reflexivity. Qed.
(* ---------- C89 ---------- *)
Fixpoint mticks (n : nat) (m : multi) : multi := match n with O => m | S n => mticks n (mtick m) end.
Lemma mtick_pending m : (1 <= pending m)%nat -> pending (mtick m) = (pending m - 1 + length (spins m))%nat /\ length (spins (mtick m)) = length (spins m).
Proof.
  intros H. unfold mtick. cbn [pending spins]. split; [|apply map_length].
  assert (E : forall l, fold_right (fun s a => (snd (supdate s STick) + a)%nat) 0%nat l = length l) by (induction l as [|s l IH]; cbn [fold_right length]; [|rewrite IH]; reflexivity). now rewrite E.
Qed.
(** One spinner: exactly one tick is pending at any time. *)
Theorem C293_single_spinner : forall s n, pending (mticks n (mstart [s])) = 1%nat.
Proof.
  intros s n. enough (G : forall m, pending m = 1%nat -> length (spins m) = 1%nat -> pending (mticks n m) = 1%nat) by (apply G; reflexivity).
  induction n as [|n IH]; intros m P L; [exact P|]. cbn [mticks]. destruct (mtick_pending m) as [E1 E2]; [lia|]. apply IH; lia.
Qed.
(** k spinners: every tick that fires is replaced by k new ones, so after n ticks k + n (k - 1) are pending: unbounded growth
    already for two. *)
Theorem C89_ticks_multiply_refuted : forall ss n, ss <> [] -> pending (mticks n (mstart ss)) = (length ss + n * (length ss - 1))%nat.
Proof.
  intros ss n N. assert (L : (1 <= length ss)%nat) by (destruct ss; cbn; [congruence|lia]).
  enough (G : forall m, (1 <= pending m)%nat -> length (spins m) = length ss -> pending (mticks n m) = (pending m + n * (length ss - 1))%nat) by (apply G; auto).
  induction n as [|n IH]; intros m P E; [cbn; lia|]. cbn [mticks]. destruct (mtick_pending m P) as [E1 E2]. rewrite IH by lia. rewrite E1, E. lia.
Qed.

Print Assumptions C40_percentage_in_range. Print Assumptions C40_updates. Print Assumptions C40_bar_geometry. Print Assumptions C40_calls.
Print Assumptions C40_new. Print Assumptions C40_percent_text. Print Assumptions C86_increment_overflows_refuted. Print Assumptions C292_saturates.
Print Assumptions C87_style_always_good. Print Assumptions C87_spinner_cycles. Print Assumptions C87_label_and_view. Print Assumptions C87_named.
Print Assumptions C87_known_names. Print Assumptions C88_custom_frames_ignored_refuted. Print Assumptions C293_single_spinner. Print Assumptions C89_ticks_multiply_refuted.
