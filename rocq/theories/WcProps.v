(** The Windows console terminal: cursor, clearing, modes; and where it departs from the interface. *)
From Verif Require Import Prelude Text WcModel.
From Verif Require TmModel.

(* ---------- Specification ---------- *)

(** Win32 limits: sizes fit a COORD, the window lies within the buffer, the cursor too. *)
Definition wf_buf (b : buf) : Prop :=
  1 <= bw b <= 32767 /\ 1 <= bh b <= 32767 /\ 1 <= ww b <= bw b /\ 1 <= wh b <= bh b /\ 0 <= cx b < bw b /\ 0 <= cy b < bh b.
Definition cell (b : buf) (x y : Z) : Prop := 0 <= x < bw b /\ 0 <= y < bh b.
(** The buffer the user sees, and the one the terminal object works on. *)
Definition visible (s : st) : option buf := buf_of (device s) (active (device s)).
Definition current (s : st) : option buf := buf_of (device s) (out (obj s)).
(** The state in which only the object's current buffer has become b. *)
Definition with_buf (s : st) (b : buf) : st := St (obj s) (saved s) (set_buf (device s) (out (obj s)) (Some b)) (orc s).
(** The same buffer with the cursor elsewhere. *)
Definition cursor_at (b : buf) (x y : Z) (b' : buf) : Prop := b' = Buf (bw b) (bh b) (ww b) (wh b) (txt b) (atr b) (def b) x y (vis b) (csz b).
Definition same_shape (b b' : buf) : Prop := bw b' = bw b /\ bh b' = bh b /\ ww b' = ww b /\ wh b' = wh b /\ def b' = def b /\ vis b' = vis b /\ csz b' = csz b.

Definition is_write (c : TmModel.call) : bool := match c with TmModel.Write _ | TmModel.WriteAt _ _ _ => true | _ => false end.

Section Console.
Variable put : list Z -> buf -> buf.
Variable close_ok : nat -> bool.
Notation do_call := (do_call put close_ok).
Notation do_calls := (do_calls put close_ok).

(** Printing keeps the buffer well-formed and of the same size. *)
Definition sane : Prop := forall s b, wf_buf b -> wf_buf (put s b).
(** States a program can bring about, whatever Win32 calls failed on the way. *)
Definition reached (s : st) : Prop := exists b mode o cs, wf_buf b /\ s = do_calls cs (start b mode o).

(* ---------- Proofs ---------- *)

Lemma nth_set_same {A} (l : list A) i x y : nth_error l i = Some y -> nth_error (set_nth l i x) i = Some x.
Proof using. clear. revert i. induction l as [|z l IH]; intros [|i] H; try discriminate; cbn in *; auto. Qed.
Lemma nth_set_other {A} (l : list A) i j x : j <> i -> nth_error (set_nth l i x) j = nth_error l j.
Proof using. clear. revert i j. induction l as [|z l IH]; intros [|i] [|j] H; cbn; auto; try congruence; apply IH; congruence. Qed.
Lemma set_set {A} (l : list A) i x y : set_nth (set_nth l i x) i y = set_nth l i y.
Proof using. clear. revert i. induction l as [|z l IH]; intros [|i]; cbn; auto. now rewrite IH. Qed.
Lemma set_id {A} (l : list A) i x : nth_error l i = Some x -> set_nth l i x = l.
Proof using. clear. revert i. induction l as [|z l IH]; intros [|i] H; cbn in *; try discriminate; [congruence|]. f_equal. auto. Qed.
Lemma set_length {A} (l : list A) i x : length (set_nth l i x) = length l.
Proof using. clear. revert i. induction l as [|z l IH]; intros [|i]; cbn; auto. Qed.

Lemma buf_of_set d h b0 x : buf_of d h = Some b0 -> forall j, buf_of (set_buf d h x) j = if Nat.eqb j h then x else buf_of d j.
Proof using.
  clear. unfold buf_of, set_buf. cbn [bufs]. intros H j. destruct (Nat.eqb_spec j h) as [->|N].
  - destruct (nth_error (bufs d) h) as [y|] eqn:E; [|discriminate]. rewrite (nth_set_same _ _ _ _ E). destruct x; reflexivity.
  - rewrite nth_set_other by exact N. reflexivity.
Qed.
Lemma buf_nth d h b : buf_of d h = Some b -> nth_error (bufs d) h = Some (Some b).
Proof using. clear. unfold buf_of. destruct (nth_error (bufs d) h) as [[y|]|]; congruence. Qed.
Lemma set_buf_id d h b : buf_of d h = Some b -> set_buf d h (Some b) = d.
Proof using. clear. intros H. unfold set_buf. rewrite set_id by now apply buf_nth. destruct d; reflexivity. Qed.
Lemma set_buf_set d h x y : set_buf (set_buf d h x) h y = set_buf d h y.
Proof using. clear. unfold set_buf. cbn [bufs active imode]. now rewrite set_set. Qed.

Lemma current_with s b b' : current s = Some b -> current (with_buf s b') = Some b'.
Proof using. clear. intros H. unfold current, with_buf. cbn [obj device]. rewrite (buf_of_set _ _ b _ H). now rewrite Nat.eqb_refl. Qed.
Lemma with_with s b b' : with_buf (with_buf s b) b' = with_buf s b'.
Proof using. clear. unfold with_buf. cbn [obj device saved orc]. now rewrite set_buf_set. Qed.
Lemma with_same s b : current s = Some b -> with_buf s b = s.
Proof using. clear. intros H. unfold with_buf. rewrite set_buf_id by exact H. destruct s; reflexivity. Qed.

(** A Win32 call that is not refused. *)
Lemma on_buf_ok {A} s b (f : buf -> option (A * buf)) x b' : orc s = [] -> current s = Some b -> f b = Some (x, b') -> on_buf (out (obj s)) f s = (Some x, with_buf s b').
Proof using. clear. intros O C F. unfold on_buf, sys. rewrite O. cbn [TmModel.ask]. unfold current in C. rewrite C, F. unfold with_buf. now rewrite O. Qed.
Lemma on_buf_no {A} s b (f : buf -> option (A * buf)) : orc s = [] -> current s = Some b -> f b = None -> on_buf (out (obj s)) f s = (None, s).
Proof using. clear. intros O C F. unfold on_buf, sys. rewrite O. cbn [TmModel.ask]. unfold current in C. rewrite C, F. destruct s; cbn in *; congruence. Qed.

Lemma int16_id z : -32768 <= z <= 32767 -> int16 z = z.
Proof using. clear. intros H. unfold int16. rewrite Z.mod_small by lia. lia. Qed.

Lemma info s b : orc s = [] -> current s = Some b -> refreshInfo s = (Some b, s).
Proof using. clear. intros O C. unfold refreshInfo, bind, get, GetInfo. rewrite (on_buf_ok s b _ b b O C eq_refl). now rewrite with_same. Qed.
Lemma getpos s b : orc s = [] -> current s = Some b -> GetCursorPosition s = (Some (cx b, cy b), s).
Proof using. clear. intros O C. unfold GetCursorPosition, bind. now rewrite (info s b O C). Qed.
Lemma setpos s b x y : orc s = [] -> current s = Some b -> wf_buf b -> cell b x y -> SetCursorPosition x y s = (Some tt, with_buf s (set_cursor b x y)).
Proof using.
  clear. intros O C (W1 & W2 & _) (X & Y). unfold SetCursorPosition, bind, get, SetConsoleCursorPosition. rewrite (on_buf_ok s b _ tt (set_cursor b x y) O C); [reflexivity|].
  rewrite !int16_id by lia. replace ((0 <=? x) && (x <? bw b) && (0 <=? y) && (y <? bh b)) with true by lia. reflexivity.
Qed.
Lemma setpos_no s b x y : orc s = [] -> current s = Some b -> -32768 <= x <= 32767 -> -32768 <= y <= 32767 -> ~ cell b x y -> SetCursorPosition x y s = (None, s).
Proof using.
  clear. intros O C X Y N. unfold SetCursorPosition, bind, get, SetConsoleCursorPosition. rewrite (on_buf_no s b _ O C); [reflexivity|].
  rewrite !int16_id by lia. unfold cell in N. replace ((0 <=? x) && (x <? bw b) && (0 <=? y) && (y <? bh b)) with false by lia. reflexivity.
Qed.

(** The invariant of all executions. *)
Definition inv (s : st) : Prop :=
  (forall h b, buf_of (device s) h = Some b -> wf_buf b) /\
  active (device s) = out (obj s) /\
  (exists b, buf_of (device s) 0 = Some b) /\
  (exists b, buf_of (device s) (out (obj s)) = Some b) /\
  (if inAlt (obj s) then orig (obj s) = 0%nat /\ alt (obj s) = Some (out (obj s)) /\ out (obj s) <> 0%nat else out (obj s) = 0%nat).

(** Calls that only work on the current buffer preserve it; stated for the monad. *)
Definition tame {A} (m : M A) : Prop := forall s, inv s -> let s' := snd (m s) in
  inv s' /\ obj s' = obj s /\ active (device s') = active (device s) /\ imode (device s') = imode (device s) /\ length (bufs (device s')) = length (bufs (device s)) /\
  (forall h, h <> out (obj s) -> buf_of (device s') h = buf_of (device s) h).
Lemma tame_ret {A} (x : A) : tame (ret x).
Proof using. clear. intros s I. cbn. auto 10. Qed.
Lemma tame_fail {A} : tame (@fail A).
Proof using. clear. intros s I. cbn. auto 10. Qed.
Lemma tame_get : tame get.
Proof using. clear. intros s I. cbn. auto 10. Qed.
Lemma tame_bind {A B} (m : M A) (k : A -> M B) : tame m -> (forall x, tame (k x)) -> tame (bind m k).
Proof using.
  clear. intros M K s I. unfold bind. specialize (M s I). destruct (m s) as [[x|] s1]; cbn [snd] in *; [|exact M]. destruct M as (I1 & O1 & A1 & M1 & L1 & B1).
  specialize (K x s1 I1). cbv zeta in *. destruct K as (I2 & O2 & A2 & M2 & L2 & B2). split; [exact I2|]. rewrite O2, A2, M2, L2. do 4 (split; [first [assumption|reflexivity]|]). intros h H. rewrite B2 by congruence. now apply B1.
Qed.
Lemma tame_on_buf {A} (f : buf -> option (A * buf)) : (forall b x b', wf_buf b -> f b = Some (x, b') -> wf_buf b') ->
  tame (fun s => on_buf (out (obj s)) f s).
Proof using.
  clear. intros F s I. pose proof I as I0. unfold on_buf, sys. destruct (TmModel.ask (orc s)) as [[|] o]; [|cbn [snd device obj]; split; [exact I0|]; auto 10].
  destruct I as (W & A1 & Z0 & (b & C) & R). rewrite C. destruct (f b) as [[x b']|] eqn:E; [|cbn [snd device obj]; split; [exact I0|]; auto 10].
  cbn [snd device obj]. pose proof (buf_of_set (device s) (out (obj s)) b (Some b') C) as S. split.
  - unfold inv. cbn [device obj]. split; [|split; [exact A1|split; [|split; [|exact R]]]].
    + intros h c. rewrite S. destruct (Nat.eqb h (out (obj s))); intros H; [assert (c = b') by congruence; subst; eapply F; [|exact E]; eauto|eauto].
    + destruct Z0 as [b0 Z0]. setoid_rewrite S. destruct (Nat.eqb 0 (out (obj s))); eauto.
    + setoid_rewrite S. rewrite Nat.eqb_refl. eauto.
  - split; [reflexivity|]. split; [reflexivity|]. split; [reflexivity|]. split; [unfold set_buf; cbn [bufs]; apply set_length|]. intros h H. rewrite S. now rewrite (proj2 (Nat.eqb_neq h (out (obj s)))).
Qed.
Lemma tame_out {A} (k : con -> M A) : (forall s, inv s -> let s' := snd (k (obj s) s) in
  inv s' /\ obj s' = obj s /\ active (device s') = active (device s) /\ imode (device s') = imode (device s) /\ length (bufs (device s')) = length (bufs (device s)) /\
  (forall h, h <> out (obj s) -> buf_of (device s') h = buf_of (device s) h)) -> tame (bind get k).
Proof using. clear. intros K s I. exact (K s I). Qed.
(** A call on the handle the object had at the start of the method. *)
Lemma tame_here {A} (f : buf -> option (A * buf)) : (forall b x b', wf_buf b -> f b = Some (x, b') -> wf_buf b') -> tame (bind get (fun c => on_buf (out c) f)).
Proof using. clear. intros F. apply tame_out. exact (tame_on_buf f F). Qed.
Lemma get_here {A B} (f : buf -> option (A * buf)) (k : con -> A -> M B) : (forall b x b', wf_buf b -> f b = Some (x, b') -> wf_buf b') ->
  (forall x, tame (bind get (fun c => k c x))) -> tame (bind get (fun c => bind (on_buf (out c) f) (k c))).
Proof using.
  clear. intros F K s I. unfold bind, get. pose proof (tame_on_buf f F s I) as M. cbv zeta in M. destruct (on_buf (out (obj s)) f s) as [[x|] s1] eqn:E; cbn [snd] in *; [|exact M]. destruct M as (I1 & O1 & A1 & M1 & L1 & B1).
  specialize (K x s1 I1). unfold bind, get in K. cbv zeta in K. rewrite O1 in K. destruct K as (I2 & O2 & A2 & M2 & L2 & B2). split; [exact I2|]. rewrite O2, A2, M2, L2. do 4 (split; [first [assumption|reflexivity]|]).
  intros h H. rewrite B2 by congruence. now apply B1.
Qed.

Lemma keep_info b x b' : wf_buf b -> Some (b, b) = Some (x, b') -> wf_buf b'.
Proof using. clear. intros W E. congruence. Qed.
Lemma tame_setpos x y : tame (SetCursorPosition x y).
Proof using.
  clear. apply tame_here. intros b u b' W. destruct ((0 <=? int16 x) && (int16 x <? bw b) && (0 <=? int16 y) && (int16 y <? bh b)) eqn:E; [|discriminate].
  intros H. injection H as _ <-. unfold wf_buf, set_cursor in *. cbn. lia.
Qed.
Lemma tame_info : tame refreshInfo.
Proof using. clear. apply tame_here. exact keep_info. Qed.
Lemma tame_getpos : tame GetCursorPosition.
Proof using. clear. apply tame_bind; [exact tame_info|]. intros. apply tame_ret. Qed.
Lemma tame_fillchar v n x y : tame (bind get (fun c => FillChar (out c) v n x y)).
Proof using. clear. apply tame_here. intros b u b' W H. injection H as _ <-. exact W. Qed.

Lemma tame_moves n : tame (MoveCursorUp n) /\ tame (MoveCursorDown n) /\ tame (MoveCursorLeft n) /\ tame (MoveCursorRight n).
Proof using.
  clear. unfold MoveCursorUp, MoveCursorDown, MoveCursorLeft, MoveCursorRight. destruct (n <=? 0); [auto using tame_ret|].
  split; [|split; [|split]]; (apply tame_bind; [exact tame_getpos|]; intros p); cbv zeta; try apply tame_setpos; (apply tame_bind; [exact tame_info|]; intros i); cbv zeta; apply tame_setpos.
Qed.
Lemma tame_clear : tame Clear /\ tame ClearLine /\ tame ClearFromCursor /\ forall n, tame (ClearLines n).
Proof using.
  clear. assert (K : forall v n x y b (u : unit) b', wf_buf b -> Some (tt, fill_txt b v n x y) = Some (u, b') -> wf_buf b') by (intros v n x y b u b' W H; injection H as _ <-; exact W).
  assert (K2 : forall v n x y b (u : unit) b', wf_buf b -> Some (tt, fill_atr b v n x y) = Some (u, b') -> wf_buf b') by (intros v n x y b u b' W H; injection H as _ <-; exact W).
  split; [|split; [|split]].
  - unfold Clear. apply tame_bind; [exact tame_info|]. intros i. apply get_here; [apply K|]. intros _. apply get_here; [apply K2|]. intros _. apply tame_bind; [exact tame_get|]. intros. apply tame_setpos.
  - unfold ClearLine. apply tame_bind; [exact tame_getpos|]. intros p. apply tame_bind; [exact tame_info|]. intros i. apply get_here; [apply K|]. intros _. apply tame_bind; [exact tame_get|]. intros. apply tame_setpos.
  - unfold ClearFromCursor. apply tame_bind; [exact tame_getpos|]. intros p. apply tame_bind; [exact tame_info|]. intros i. cbv zeta. apply tame_fillchar.
  - intros n. unfold ClearLines. destruct (n <=? 0); [apply tame_ret|]. apply tame_bind; [exact tame_getpos|]. intros p. apply tame_bind; [exact tame_info|]. intros i. cbv zeta.
    destruct (if snd p - n + 1 <? 0 then (0, snd p + 1) else (snd p - n + 1, n)) as [a c] eqn:E.
    apply get_here; [apply K|]. intros _. apply tame_bind; [exact tame_get|]. intros. apply tame_setpos.
Qed.
Lemma tame_cursor : tame HideCursor /\ tame ShowCursor /\ forall s, tame (SetCursorStyle s).
Proof using.
  clear. assert (K : forall v z b (u : unit) b', wf_buf b -> Some (tt, Buf (bw b) (bh b) (ww b) (wh b) (txt b) (atr b) (def b) (cx b) (cy b) v z) = Some (u, b') -> wf_buf b') by (intros v z b u b' W H; injection H as _ <-; exact W).
  assert (G : forall b (x : bool * Z) b', wf_buf b -> Some ((vis b, csz b), b) = Some (x, b') -> wf_buf b') by (intros; congruence).
  split; [|split].
  - apply get_here; [exact G|]. intros i. apply tame_here. apply K.
  - apply get_here; [exact G|]. intros i. apply tame_here. apply K.
  - intros s. apply get_here; [exact G|]. intros i. destruct (s =? 0); [apply tame_here, K|]. destruct (s =? 1); [apply tame_here, K|]. destruct (s =? 2); [apply tame_here, K|].
    apply tame_bind; [exact tame_get|]. intros. apply tame_fail.
Qed.
Lemma tame_save : tame SaveCursorPosition /\ tame RestoreCursorPosition.
Proof using.
  clear. split; [|intros s; apply tame_setpos]. unfold SaveCursorPosition. apply tame_bind; [exact tame_getpos|]. intros p s I. cbn. repeat (split; [auto|]); auto.
Qed.
Lemma inv_start b mode o : wf_buf b -> inv (start b mode o).
Proof using.
  clear. intros W. unfold inv, start, new_con. cbn [device obj active out inAlt]. split; [|split; [reflexivity|split; [exists b; reflexivity|split; [exists b; reflexivity|reflexivity]]]].
  intros h c H. unfold buf_of in H. destruct h as [|[|h]]; cbn in H; [congruence|discriminate|destruct h; discriminate].
Qed.
(** What the other calls leave alone. *)
Lemma write_inv t s : sane -> inv s -> let s' := snd (Write put t s) in
  inv s' /\ obj s' = obj s /\ active (device s') = active (device s) /\ imode (device s') = imode (device s) /\ length (bufs (device s')) = length (bufs (device s)) /\
  (forall h, h <> 0%nat -> buf_of (device s') h = buf_of (device s) h).
Proof using.
  intros P I. pose proof I as I0. unfold Write, on_buf, sys. destruct (TmModel.ask (orc s)) as [[|] o]; [|cbn [snd device obj]; split; [exact I0|]; auto 10].
  destruct I as (W & A1 & (b & Z0) & (b1 & C) & R). rewrite Z0. cbn [snd device obj]. pose proof (buf_of_set (device s) 0 b (Some (put t b)) Z0) as S. split.
  - unfold inv. cbn [device obj]. split; [|split; [exact A1|split; [|split; [|exact R]]]].
    + intros h c. rewrite S. destruct (Nat.eqb h 0); intros H; [assert (c = put t b) by congruence; subst; apply P; eauto|eauto].
    + setoid_rewrite S. cbn. eauto.
    + setoid_rewrite S. destruct (Nat.eqb (out (obj s)) 0); eauto.
  - split; [reflexivity|]. split; [reflexivity|]. split; [reflexivity|]. split; [unfold set_buf; cbn [bufs]; apply set_length|]. intros h H. rewrite S. now rewrite (proj2 (Nat.eqb_neq h 0)).
Qed.

Lemma buf_of_app bs a m x h : buf_of (Dev (bs ++ [Some x]) a m) h = if Nat.eqb h (length bs) then Some x else buf_of (Dev bs a m) h.
Proof using.
  clear. unfold buf_of. cbn [bufs]. destruct (Nat.eqb_spec h (length bs)) as [->|N].
  - rewrite nth_error_app2, Nat.sub_diag by lia. reflexivity.
  - destruct (Nat.lt_ge_cases h (length bs)) as [L|L]; [now rewrite nth_error_app1|].
    rewrite (proj2 (nth_error_None (bs ++ [Some x]) h)) by (rewrite app_length; cbn; lia). now rewrite (proj2 (nth_error_None bs h)).
Qed.
Lemma buf_of_len d h b : buf_of d h = Some b -> (h < length (bufs d))%nat.
Proof using. clear. unfold buf_of. intros H. apply nth_error_Some. destruct (nth_error (bufs d) h); congruence. Qed.
Lemma buf_of_close d h j : buf_of (set_buf d h None) j = if Nat.eqb j h then None else buf_of d j.
Proof using.
  clear. unfold buf_of, set_buf. cbn [bufs]. destruct (Nat.eqb_spec j h) as [->|N]; [|now rewrite nth_set_other].
  destruct (nth_error (bufs d) h) as [y|] eqn:E; [rewrite (nth_set_same _ _ _ _ E); reflexivity|].
  replace (set_nth (bufs d) h None) with (bufs d); [now rewrite E|]. clear -E. revert h E. induction (bufs d) as [|z l IH]; intros [|h] E; cbn in *; try discriminate; [reflexivity|reflexivity|]. f_equal. auto.
Qed.

(** EnterAltScreen: refused without effect; or failed, nothing visible or restorable changed; or in. *)
Lemma enter_alt s : inv s ->
  (inAlt (obj s) = true -> EnterAltScreen close_ok s = (None, s)) /\ (inAlt (obj s) = false -> let (r, s') := EnterAltScreen close_ok s in
     inv s' /\ imode (device s') = imode (device s) /\ inRaw (obj s') = inRaw (obj s) /\ omode (obj s') = omode (obj s) /\ saved s' = saved s /\
     (forall h, (h < length (bufs (device s)))%nat -> buf_of (device s') h = buf_of (device s) h) /\
     match r with
     | None => inAlt (obj s') = false /\ out (obj s') = 0%nat /\ active (device s') = active (device s) /\
               (forall h, (length (bufs (device s)) <= h)%nat -> close_ok (length (bufs (device s))) = true -> buf_of (device s') h = None)
     | Some _ => inAlt (obj s') = true /\ out (obj s') = length (bufs (device s)) /\ (exists b, buf_of (device s) 0 = Some b /\ buf_of (device s') (out (obj s')) = Some (fresh b)) /\
                 (forall h, (length (bufs (device s)) < h)%nat -> buf_of (device s') h = None)
     end).
Proof using.
  clear put. intros I. split; [intros A; unfold EnterAltScreen, bind, get; now rewrite A|]. intros A. destruct s as [c sv d o]. cbn [obj device saved] in *.
  unfold inv in I. cbn [obj device] in I. rewrite A in I. destruct I as (W & A1 & (b0 & Z0) & (b1 & C) & R). rewrite R in *.
  unfold EnterAltScreen, bind, get, put_obj. cbn [obj]. rewrite A. cbn [obj saved device orc].
  unfold CreateBuffer, sys at 1. cbn [orc]. destruct (TmModel.ask o) as [[|] o1]; cbn [obj saved device].
  2: { cbn [inAlt out]. rewrite R. split; [unfold inv; cbn [obj device inAlt out]; repeat (split; [eauto|]); auto|]. do 4 (split; [reflexivity|]). split; [auto|]. do 3 (split; [auto|]).
       intros h L _. unfold buf_of. now rewrite (proj2 (nth_error_None (bufs d) h)). }
  rewrite A1, Z0. cbn [obj saved device].
  set (n := length (bufs d)). pose proof (buf_of_len d 0 b0 Z0) as L0. fold n in L0.
  assert (BA : forall a m h, buf_of (Dev (bufs d ++ [Some (fresh b0)]) a m) h = if Nat.eqb h n then Some (fresh b0) else buf_of d h).
  { intros a m h. rewrite buf_of_app. fold n. destruct (Nat.eqb h n); [reflexivity|]. unfold buf_of. cbn [bufs]. reflexivity. }
  unfold SetActive, sys. cbn [orc device obj saved]. rewrite BA, Nat.eqb_refl. cbn [bufs imode].
  assert (WF : wf_buf (fresh b0)) by (specialize (W _ _ Z0); unfold wf_buf, fresh in *; cbn; lia).
  assert (NO : forall h, (n <= h)%nat -> buf_of d h = None) by (intros h L; unfold buf_of; now rewrite (proj2 (nth_error_None (bufs d) h))).
  destruct (TmModel.ask o1) as [[|] o2]; cbn [obj saved device].
  - (* active *)
    cbn [orig alt inRaw omode out inAlt imode]. split.
    { unfold inv. cbn [obj device inAlt out orig alt active]. split; [|split; [reflexivity|split; [|split; [|]]]].
      - intros h b. rewrite BA. destruct (Nat.eqb h n); intros H; [congruence|eauto].
      - exists b0. rewrite BA. rewrite (proj2 (Nat.eqb_neq 0 n)) by lia. exact Z0.
      - exists (fresh b0). now rewrite BA, Nat.eqb_refl.
      - split; [exact R|]. split; [reflexivity|lia]. }
    do 4 (split; [reflexivity|]). split; [intros h L; rewrite BA; now rewrite (proj2 (Nat.eqb_neq h n)) by lia|].
    split; [reflexivity|]. split; [reflexivity|]. split; [exists b0; split; [first [exact Z0|reflexivity]|now rewrite BA, Nat.eqb_refl]|]. intros h L. rewrite BA, (proj2 (Nat.eqb_neq h n)) by lia. apply NO. lia.
  - (* activation failed *)
    unfold CloseHandle. cbn [obj saved device orc].
    assert (K : forall dd, (dd = set_buf (Dev (bufs d ++ [Some (fresh b0)]) 0 (imode d)) n None \/ dd = Dev (bufs d ++ [Some (fresh b0)]) 0 (imode d)) ->
      (forall h b, buf_of dd h = Some b -> wf_buf b) /\ active dd = 0%nat /\ imode dd = imode d /\ forall h, (h < n)%nat -> buf_of dd h = buf_of d h).
    { intros dd [-> | ->].
      - split; [|split; [reflexivity|split; [reflexivity|]]]; intros h; [intros b|]; rewrite buf_of_close; rewrite BA; destruct (Nat.eqb_spec h n); try congruence; try eauto; lia.
      - split; [|split; [reflexivity|split; [reflexivity|]]]; intros h; [intros b|]; rewrite BA; destruct (Nat.eqb_spec h n); intros; try congruence; try eauto; lia. }
    destruct (close_ok n) eqn:CO; cbn [obj saved device orc].
    + destruct (K _ (or_introl eq_refl)) as (K1 & K2 & K3 & K4). cbn [orig alt inRaw omode out inAlt]. split.
      { unfold inv. cbn [obj device inAlt out]. rewrite ?A. split; [exact K1|]. split; [rewrite R; exact K2|]. rewrite R. split; [exists b0; rewrite K4 by exact L0; congruence|]. split; [exists b0; rewrite K4 by exact L0; congruence|reflexivity]. }
      split; [exact K3|]. do 3 (split; [reflexivity|]). split; [exact K4|]. split; [first [exact A|reflexivity]|]. split; [exact R|]. split; [first [exact K2|rewrite A1; exact K2]|].
      intros h L _. cbn [device]. rewrite buf_of_close. destruct (Nat.eqb_spec h n); [reflexivity|]. rewrite BA, (proj2 (Nat.eqb_neq h n)) by auto. now apply NO.
    + destruct (K _ (or_intror eq_refl)) as (K1 & K2 & K3 & K4). cbn [orig alt inRaw omode out inAlt]. split.
      { unfold inv. cbn [obj device inAlt out]. rewrite ?A. split; [exact K1|]. split; [rewrite R; exact K2|]. rewrite R. split; [exists b0; rewrite K4 by exact L0; congruence|]. split; [exists b0; rewrite K4 by exact L0; congruence|reflexivity]. }
      split; [exact K3|]. do 3 (split; [reflexivity|]). split; [exact K4|]. split; [first [exact A|reflexivity]|]. split; [exact R|]. split; [first [exact K2|rewrite A1; exact K2]|]. intros h _ X. discriminate X.
Qed.

(** ExitAltScreen. *)
Lemma exit_alt s : inv s ->
  (inAlt (obj s) = false -> ExitAltScreen close_ok s = (None, s)) /\
  (inAlt (obj s) = true -> let (r, s') := ExitAltScreen close_ok s in
     inv s' /\ imode (device s') = imode (device s) /\ inRaw (obj s') = inRaw (obj s) /\ omode (obj s') = omode (obj s) /\ saved s' = saved s /\ length (bufs (device s')) = length (bufs (device s)) /\
     (forall h, h <> out (obj s) -> buf_of (device s') h = buf_of (device s) h) /\
     match r with
     | None => obj s' = obj s /\ device s' = device s
     | Some _ => inAlt (obj s') = false /\ out (obj s') = 0%nat /\ active (device s') = 0%nat /\ (close_ok (out (obj s)) = true -> buf_of (device s') (out (obj s)) = None)
     end).
Proof using.
  clear put. intros I. split; [intros A; unfold ExitAltScreen, bind, get; now rewrite A|]. intros A. destruct s as [c sv d o]. cbn [obj device saved] in *.
  unfold inv in I. cbn [obj device] in I. rewrite A in I. destruct I as (W & A1 & (b0 & Z0) & (b1 & C) & R1 & R2 & R3).
  unfold ExitAltScreen, bind, get, put_obj. cbn [obj]. rewrite A. cbn [negb]. unfold SetActive, sys. cbn [orc device obj saved]. rewrite R1, Z0.
  destruct (TmModel.ask o) as [[|] o1]; cbn [obj saved device].
  - rewrite R2. unfold CloseHandle. cbn [obj saved device orc].
    assert (K : forall dd, (dd = set_buf (Dev (bufs d) 0 (imode d)) (out c) None \/ dd = Dev (bufs d) 0 (imode d)) ->
       (forall h b, buf_of dd h = Some b -> wf_buf b) /\ active dd = 0%nat /\ imode dd = imode d /\ length (bufs dd) = length (bufs d) /\ forall h, h <> out c -> buf_of dd h = buf_of d h).
    { intros dd [-> | ->].
      - split; [|split; [reflexivity|split; [reflexivity|split; [cbn; apply set_length|]]]]; intros h; [intros b|intros N]; rewrite buf_of_close; destruct (Nat.eqb_spec h (out c)); try congruence; [|reflexivity]. intros H. exact (W h b H).
      - split; [|auto]. intros h b H. exact (W h b H). }
    destruct (close_ok (out c)) eqn:CO; cbn [obj saved device orc].
    + destruct (K _ (or_introl eq_refl)) as (K1 & K2 & K3 & K4 & K5). rewrite R1. cbn [orig alt inRaw omode out inAlt]. split.
      { unfold inv. cbn [obj device inAlt out]. split; [exact K1|]. split; [exact K2|]. split; [exists b0; rewrite K5 by auto; exact Z0|]. split; [exists b0; rewrite K5 by auto; exact Z0|reflexivity]. }
      split; [exact K3|]. do 3 (split; [reflexivity|]). split; [exact K4|]. split; [exact K5|]. do 3 (split; [reflexivity|]). intros _. now rewrite buf_of_close, Nat.eqb_refl.
    + destruct (K _ (or_intror eq_refl)) as (K1 & K2 & K3 & K4 & K5). rewrite R1. cbn [orig alt inRaw omode out inAlt]. split.
      { unfold inv. cbn [obj device inAlt out]. split; [exact K1|]. split; [exact K2|]. split; [exists b0; rewrite K5 by auto; exact Z0|]. split; [exists b0; rewrite K5 by auto; exact Z0|reflexivity]. }
      split; [exact K3|]. do 3 (split; [reflexivity|]). split; [exact K4|]. split; [exact K5|]. do 3 (split; [reflexivity|]). intros X. discriminate X.
  - split; [unfold inv; cbn [obj device]; rewrite A; eauto 12|]. auto 12.
Qed.

(** Raw mode calls touch the input mode only. *)
Lemma raw_calls s : inv s -> forall m, (m = EnterRawMode \/ m = ExitRawMode) -> let s' := snd (m s) in
  inv s' /\ bufs (device s') = bufs (device s) /\ active (device s') = active (device s) /\ out (obj s') = out (obj s) /\ inAlt (obj s') = inAlt (obj s) /\ saved s' = saved s.
Proof using.
  clear put close_ok. intros I m H. assert (K : forall d' c' o', bufs d' = bufs (device s) -> active d' = active (device s) -> out c' = out (obj s) -> orig c' = orig (obj s) -> alt c' = alt (obj s) -> inAlt c' = inAlt (obj s) -> inv (St c' (saved s) d' o')).
  { intros d' c' o' E1 E2 E3 E4 E5 E6. unfold inv in *. cbn [obj device]. rewrite E2, E3, E4, E5, E6. unfold buf_of in *. rewrite E1. exact I. }
  destruct H as [-> | ->]; unfold EnterRawMode, ExitRawMode, bind, get, put_obj, GetMode, SetMode, sys.
  - destruct (inRaw (obj s)); [cbn; auto 10|]. destruct (TmModel.ask (orc s)) as [[|] o1]; cbn [obj saved device orc snd]; [|split; [apply K; reflexivity|auto 10]].
    destruct (TmModel.ask o1) as [[|] o2]; cbn [obj saved device orc snd]; (split; [apply K; reflexivity|auto 10]).
  - destruct (inRaw (obj s)); cbn [negb]; [|cbn; auto 10]. destruct (TmModel.ask (orc s)) as [[|] o1]; cbn [obj saved device orc snd]; (split; [apply K; reflexivity|auto 10]).
Qed.

(** Every call but the mode calls: the object, the active buffer and the input mode stay; only
    the current buffer, and for writes buffer 0, may change. *)
Lemma plain_call c s : sane -> inv s -> match c with TmModel.EnterAltScreen | TmModel.ExitAltScreen | TmModel.EnterRawMode | TmModel.ExitRawMode => False | _ => True end ->
  let s' := snd (do_call c s) in
  inv s' /\ obj s' = obj s /\ active (device s') = active (device s) /\ imode (device s') = imode (device s) /\ length (bufs (device s')) = length (bufs (device s)) /\
  (forall h, h <> out (obj s) -> (h = 0%nat -> is_write c = false) -> buf_of (device s') h = buf_of (device s) h).
Proof using.
  intros P I H. assert (T : forall m : M unit, tame m -> let s' := snd (m s) in
    inv s' /\ obj s' = obj s /\ active (device s') = active (device s) /\ imode (device s') = imode (device s) /\ length (bufs (device s')) = length (bufs (device s)) /\
    (forall h, h <> out (obj s) -> (h = 0%nat -> is_write c = false) -> buf_of (device s') h = buf_of (device s) h)).
  { intros m T. destruct (T s I) as (T1 & T2 & T3 & T4 & T5 & T6). auto 10. }
  assert (W : forall t s1, inv s1 -> obj s1 = obj s -> active (device s1) = active (device s) -> imode (device s1) = imode (device s) -> length (bufs (device s1)) = length (bufs (device s)) ->
    (forall h, h <> out (obj s) -> buf_of (device s1) h = buf_of (device s) h) -> is_write c = true -> let s' := snd (Write put t s1) in
    inv s' /\ obj s' = obj s /\ active (device s') = active (device s) /\ imode (device s') = imode (device s) /\ length (bufs (device s')) = length (bufs (device s)) /\
    (forall h, h <> out (obj s) -> (h = 0%nat -> is_write c = false) -> buf_of (device s') h = buf_of (device s) h)).
  { intros t s1 I1 O1 A1 M1 L1 B1 Q. destruct (write_inv t s1 P I1) as (X1 & X2 & X3 & X4 & X5 & X6). cbv zeta. rewrite X2, X3, X4, X5. do 5 (split; [assumption|]).
    intros h N N0. rewrite X6; [now apply B1|]. intros ->. specialize (N0 eq_refl). congruence. }
  destruct c; try contradiction; cbn [WcModel.do_call].
  - apply T, tame_setpos.
  - apply T, tame_moves.
  - apply T, tame_moves.
  - apply T, tame_moves.
  - apply T, tame_moves.
  - apply T, tame_save.
  - apply T, tame_save.
  - apply T, tame_cursor.
  - apply T, tame_cursor.
  - apply T, tame_cursor.
  - apply T, tame_clear.
  - apply T, tame_clear.
  - apply T, tame_clear.
  - apply T, tame_clear.
  - apply W; auto.
  - unfold WriteAt, bind. destruct (tame_setpos x y s I) as (T1 & T2 & T3 & T4 & T5 & T6). destruct (SetCursorPosition x y s) as [[u|] s1]; cbn [snd] in *; [apply W; auto|]. auto 10.
Qed.
Lemma call_inv c s : sane -> inv s -> inv (snd (do_call c s)).
Proof using.
  intros P I. pose proof (plain_call c s P I) as H. destruct c; try exact (proj1 (H Logic.I)); clear H; cbn [WcModel.do_call].
  - destruct (enter_alt s I) as [E1 E2]. destruct (inAlt (obj s)) eqn:A; [rewrite E1 by auto; exact I|]. specialize (E2 eq_refl). destruct (EnterAltScreen close_ok s). exact (proj1 E2).
  - destruct (exit_alt s I) as [E1 E2]. destruct (inAlt (obj s)) eqn:A; [|rewrite E1 by auto; exact I]. specialize (E2 eq_refl). destruct (ExitAltScreen close_ok s). exact (proj1 E2).
  - exact (proj1 (raw_calls s I _ (or_introl eq_refl))).
  - exact (proj1 (raw_calls s I _ (or_intror eq_refl))).
Qed.
Lemma calls_inv cs : forall s, sane -> inv s -> inv (do_calls cs s).
Proof using. induction cs as [|c cs IH]; intros s P I; [exact I|]. cbn [WcModel.do_calls fold_left]. apply (IH _ P). now apply call_inv. Qed.
Lemma reached_inv s : sane -> reached s -> inv s.
Proof using. intros P (b & m & o & cs & W & ->). apply calls_inv; [exact P|]. now apply inv_start. Qed.
Lemma reached_current s b : sane -> reached s -> current s = Some b -> wf_buf b.
Proof using. intros P R C. destruct (reached_inv s P R) as (W & _). exact (W _ _ C). Qed.

(* ---------- C233 ---------- *)

(** The object always works on the buffer the user sees, and it is a proper one. *)
Theorem C233_current_is_visible : forall s, sane -> reached s -> current s = visible s /\ exists b, current s = Some b /\ wf_buf b.
Proof using.
  intros s P R. destruct (reached_inv s P R) as (W & A & _ & (b & C) & _). unfold current, visible. rewrite A. split; [reflexivity|]. exists b. split; [exact C|]. exact (W _ _ C).
Qed.
(** Reading and setting the cursor: exactly, or refused when outside (within the range of int16). *)
Theorem C233_position : forall s b x y, sane -> reached s -> orc s = [] -> current s = Some b ->
  GetCursorPosition s = (Some (cx b, cy b), s) /\
  (cell b x y -> exists b', do_call (TmModel.SetCursorPosition x y) s = (Some tt, with_buf s b') /\ cursor_at b x y b') /\
  (-32768 <= x <= 32767 -> -32768 <= y <= 32767 -> ~ cell b x y -> do_call (TmModel.SetCursorPosition x y) s = (None, s)).
Proof using.
  intros s b x y P R O C. pose proof (reached_current s b P R C) as W. split; [exact (getpos s b O C)|]. split.
  - intros X. exists (set_cursor b x y). split; [now apply setpos|reflexivity].
  - intros X Y N. now apply setpos_no with (b := b).
Qed.
(** Relative moves: so many cells, stopping at the edges; nothing for n <= 0. *)
Theorem C233_moves : forall s b n, sane -> reached s -> orc s = [] -> current s = Some b ->
  let moves c x y := exists b', do_call c s = (Some tt, with_buf s b') /\ cursor_at b x y b' in
  moves (TmModel.MoveCursorUp n) (cx b) (Z.max 0 (cy b - Z.max 0 n)) /\
  moves (TmModel.MoveCursorDown n) (cx b) (Z.min (bh b - 1) (cy b + Z.max 0 n)) /\
  moves (TmModel.MoveCursorLeft n) (Z.max 0 (cx b - Z.max 0 n)) (cy b) /\
  moves (TmModel.MoveCursorRight n) (Z.min (bw b - 1) (cx b + Z.max 0 n)) (cy b).
Proof using.
  intros s b n P R O C moves. pose proof (reached_current s b P R C) as W. pose proof W as W0. destruct W as (W1 & W2 & W3 & W4 & W5 & W6).
  assert (K : forall (m : M unit) x y, cell b x y -> m s = SetCursorPosition x y s -> exists b', m s = (Some tt, with_buf s b') /\ cursor_at b x y b').
  { intros m x y X E. exists (set_cursor b x y). split; [rewrite E; now apply setpos|reflexivity]. }
  assert (K0 : forall (m : M unit), m = ret tt -> exists b', m s = (Some tt, with_buf s b') /\ cursor_at b (cx b) (cy b) b').
  { intros m ->. exists b. split; [now rewrite with_same|]. unfold cursor_at. destruct b; reflexivity. }
  unfold moves. clear moves. cbn [WcModel.do_call]. unfold MoveCursorUp, MoveCursorDown, MoveCursorLeft, MoveCursorRight. destruct (n <=? 0) eqn:N.
  - replace (Z.max 0 (cy b - Z.max 0 n)) with (cy b) by lia. replace (Z.min (bh b - 1) (cy b + Z.max 0 n)) with (cy b) by lia.
    replace (Z.max 0 (cx b - Z.max 0 n)) with (cx b) by lia. replace (Z.min (bw b - 1) (cx b + Z.max 0 n)) with (cx b) by lia.
    split; [|split; [|split]]; now apply K0.
  - split; [|split; [|split]].
    + apply K; [unfold cell; lia|]. unfold bind. rewrite (getpos s b O C). cbn [fst snd]. cbv zeta. f_equal. destruct (cy b - n <? 0) eqn:E; lia.
    + apply K; [unfold cell; lia|]. unfold bind at 1. rewrite (getpos s b O C). unfold bind. rewrite (info s b O C). cbn [fst snd]. cbv zeta. f_equal. destruct (bh b - 1 <? cy b + n) eqn:E; lia.
    + apply K; [unfold cell; lia|]. unfold bind. rewrite (getpos s b O C). cbn [fst snd]. cbv zeta. f_equal. destruct (cx b - n <? 0) eqn:E; lia.
    + apply K; [unfold cell; lia|]. unfold bind at 1. rewrite (getpos s b O C). unfold bind. rewrite (info s b O C). cbn [fst snd]. cbv zeta. f_equal. destruct (bw b - 1 <? cx b + n) eqn:E; lia.
Qed.

(** Showing, hiding and the styles (0 block, 1 underline, 2 bar): exactly that changes; an unknown style is refused. *)
Theorem C233_cursor_look : forall s b n, sane -> reached s -> orc s = [] -> current s = Some b ->
  let looks c v z := do_call c s = (Some tt, with_buf s (Buf (bw b) (bh b) (ww b) (wh b) (txt b) (atr b) (def b) (cx b) (cy b) v z)) in
  looks TmModel.HideCursor false (csz b) /\ looks TmModel.ShowCursor true (csz b) /\
  looks (TmModel.SetCursorStyle 0) (vis b) 100 /\ looks (TmModel.SetCursorStyle 1) (vis b) 25 /\ looks (TmModel.SetCursorStyle 2) (vis b) 10 /\
  (n < 0 \/ 2 < n -> do_call (TmModel.SetCursorStyle n) s = (None, s)).
Proof using.
  intros s b n P R O C looks. unfold looks. clear looks. cbn [WcModel.do_call].
  assert (G : GetCursorInfo (out (obj s)) s = (Some (vis b, csz b), s)) by (unfold GetCursorInfo; rewrite (on_buf_ok s b _ (vis b, csz b) b O C eq_refl); now rewrite with_same).
  assert (K : forall v z, SetCursorInfo (out (obj s)) v z s = (Some tt, with_buf s (Buf (bw b) (bh b) (ww b) (wh b) (txt b) (atr b) (def b) (cx b) (cy b) v z))) by (intros v z; exact (on_buf_ok s b _ tt _ O C eq_refl)).
  unfold HideCursor, ShowCursor, SetCursorStyle, bind, get. rewrite G. cbn [fst snd]. do 5 (split; [apply K|]).
  intros N. replace (n =? 0) with false by lia. replace (n =? 1) with false by lia. replace (n =? 2) with false by lia. reflexivity.
Qed.

(* ---------- C234 ---------- *)

Lemma lex w x y X Y : 0 <= x < w -> 0 <= X < w -> (y * w + x <= Y * w + X <-> y < Y \/ (y = Y /\ x <= X)).
Proof using. clear. intros A B. destruct (Z.lt_trichotomy y Y) as [L|[->|L]]; split; intros H; try nia; try lia. Qed.
Lemma index_in w h X Y : 0 <= X < w -> 0 <= Y < h -> Y * w + X < w * h.
Proof using. clear. intros. nia. Qed.
Lemma fillchar s b v n x y : orc s = [] -> current s = Some b -> FillChar (out (obj s)) v n x y s = (Some tt, with_buf s (fill_txt b v n x y)).
Proof using. clear. intros O C. exact (on_buf_ok s b _ tt _ O C eq_refl). Qed.
Lemma fillattr s b v n x y : orc s = [] -> current s = Some b -> FillAttr (out (obj s)) v n x y s = (Some tt, with_buf s (fill_atr b v n x y)).
Proof using. clear. intros O C. exact (on_buf_ok s b _ tt _ O C eq_refl). Qed.
Lemma orc_with s b : orc (with_buf s b) = orc s.
Proof using. reflexivity. Qed.
Lemma obj_with s b : obj (with_buf s b) = obj s.
Proof using. reflexivity. Qed.
Lemma wf_fill b v n x y : wf_buf b -> wf_buf (fill_txt b v n x y) /\ wf_buf (fill_atr b v n x y).
Proof using. clear. intros W. split; exact W. Qed.

Theorem C234_clear : forall s b, sane -> reached s -> orc s = [] -> current s = Some b ->
  exists b', do_call TmModel.Clear s = (Some tt, with_buf s b') /\ same_shape b b' /\ cx b' = 0 /\ cy b' = 0 /\
  forall x y, cell b x y -> char_at b' x y = 32 /\ attr_at b' x y = def b.
Proof using.
  intros s b P R O C. pose proof (reached_current s b P R C) as W. exists (set_cursor (fill_atr (fill_txt b 32 (bw b * bh b) 0 0) (def b) (bw b * bh b) 0 0) 0 0). split.
  - cbn [WcModel.do_call]. unfold Clear, bind. rewrite (info s b O C). cbn [get]. unfold get. rewrite (fillchar s b _ _ _ _ O C).
    set (b1 := fill_txt b 32 (bw b * bh b) 0 0). rewrite <- (obj_with s b1) at 1. rewrite (fillattr (with_buf s b1) b1 _ _ _ _ O (current_with s b b1 C)). rewrite with_with.
    set (b2 := fill_atr b1 (def b) (bw b * bh b) 0 0). rewrite (setpos (with_buf s b2) b2 0 0 O (current_with s b b2 C)); [now rewrite with_with|apply wf_fill, wf_fill, W|].
    destruct W as (W1 & W2 & _). unfold cell. cbn. lia.
  - split; [repeat split|]. split; [reflexivity|]. split; [reflexivity|]. intros x y (X & Y). destruct W as (W1 & W2 & _). pose proof (index_in (bw b) (bh b) x y X Y) as IN.
    unfold char_at, attr_at, set_cursor, fill_atr, fill_txt, fill. cbn [bw bh txt atr].
    replace ((0 * bw b + 0 <=? y * bw b + x) && (y * bw b + x <? 0 * bw b + 0 + bw b * bh b) && (y * bw b + x <? bw b * bh b)) with true by (symmetry; rewrite !andb_true_iff; repeat split; nia).
    auto.
Qed.
Theorem C234_clear_line : forall s b, sane -> reached s -> orc s = [] -> current s = Some b ->
  exists b', do_call TmModel.ClearLine s = (Some tt, with_buf s b') /\ same_shape b b' /\ cx b' = 0 /\ cy b' = cy b /\
  forall x y, cell b x y -> char_at b' x y = (if y =? cy b then 32 else char_at b x y) /\ attr_at b' x y = attr_at b x y.
Proof using.
  intros s b P R O C. pose proof (reached_current s b P R C) as W. pose proof W as W0. destruct W0 as (W1 & W2 & _ & _ & W5 & W6).
  exists (set_cursor (fill_txt b 32 (bw b) 0 (cy b)) 0 (cy b)). split.
  - cbn [WcModel.do_call]. unfold ClearLine, bind. rewrite (getpos s b O C). rewrite (info s b O C). unfold get. cbn [fst snd]. rewrite int16_id by lia. rewrite (fillchar s b _ _ _ _ O C).
    set (b1 := fill_txt b 32 (bw b) 0 (cy b)). rewrite (setpos (with_buf s b1) b1 0 (cy b) O (current_with s b b1 C)); [now rewrite with_with|apply wf_fill, W|]. unfold cell. cbn. lia.
  - split; [repeat split|]. split; [reflexivity|]. split; [reflexivity|]. intros x y (X & Y). pose proof (index_in (bw b) (bh b) x y X Y) as IN. split; [|reflexivity].
    unfold char_at, set_cursor, fill_txt, fill. cbn [bw bh txt]. pose proof (lex (bw b) 0 (cy b) x y ltac:(lia) X) as L1.
    pose proof (lex (bw b) 0 (cy b + 1) x y ltac:(lia) X) as L2. 
    destruct (y =? cy b) eqn:E.
    + replace ((cy b * bw b + 0 <=? y * bw b + x) && (y * bw b + x <? cy b * bw b + 0 + bw b) && (y * bw b + x <? bw b * bh b)) with true; [reflexivity|]. symmetry. rewrite !andb_true_iff. repeat split; nia.
    + replace ((cy b * bw b + 0 <=? y * bw b + x) && (y * bw b + x <? cy b * bw b + 0 + bw b) && (y * bw b + x <? bw b * bh b)) with false; [reflexivity|]. symmetry. rewrite !andb_false_iff.
      destruct (Z.lt_ge_cases y (cy b)); [left; left; nia|left; right; nia].
Qed.
Theorem C234_clear_from_cursor : forall s b, sane -> reached s -> orc s = [] -> current s = Some b ->
  exists b', do_call TmModel.ClearFromCursor s = (Some tt, with_buf s b') /\ same_shape b b' /\ cx b' = cx b /\ cy b' = cy b /\
  forall x y, cell b x y -> char_at b' x y = (if (cy b <? y) || (y =? cy b) && (cx b <=? x) then 32 else char_at b x y) /\ attr_at b' x y = attr_at b x y.
Proof using.
  intros s b P R O C. pose proof (reached_current s b P R C) as W. pose proof W as W0. destruct W0 as (W1 & W2 & _ & _ & W5 & W6).
  exists (fill_txt b 32 (bw b - cx b + (bh b - cy b - 1) * bw b) (cx b) (cy b)). split.
  - cbn [WcModel.do_call]. unfold ClearFromCursor, bind. rewrite (getpos s b O C). rewrite (info s b O C). unfold get. cbn [fst snd]. cbv zeta. rewrite !int16_id by lia. now rewrite (fillchar s b _ _ _ _ O C).
  - split; [repeat split|]. split; [reflexivity|]. split; [reflexivity|]. intros x y (X & Y). pose proof (index_in (bw b) (bh b) x y X Y) as IN. split; [|reflexivity].
    unfold char_at, fill_txt, fill. cbn [bw bh txt]. pose proof (lex (bw b) (cx b) (cy b) x y W5 X) as L1.
    replace (cy b * bw b + cx b + (bw b - cx b + (bh b - cy b - 1) * bw b)) with (bw b * bh b) by nia.
    destruct ((cy b <? y) || (y =? cy b) && (cx b <=? x)) eqn:E.
    + replace (cy b * bw b + cx b <=? y * bw b + x) with true by lia. replace (y * bw b + x <? bw b * bh b) with true by lia. reflexivity.
    + replace (cy b * bw b + cx b <=? y * bw b + x) with false by lia. reflexivity.
Qed.
(** ClearLines(n), n > 0: the row of the cursor and the n - 1 above it, as far as there are any; the cursor goes to the first of them. *)
Theorem C234_clear_lines : forall s b n, sane -> reached s -> orc s = [] -> current s = Some b ->
  (n <= 0 -> do_call (TmModel.ClearLines n) s = (Some tt, s)) /\
  (0 < n -> let top := Z.max 0 (cy b - n + 1) in
   exists b', do_call (TmModel.ClearLines n) s = (Some tt, with_buf s b') /\ same_shape b b' /\ cx b' = 0 /\ cy b' = top /\
   forall x y, cell b x y -> char_at b' x y = (if (top <=? y) && (y <=? cy b) then 32 else char_at b x y) /\ attr_at b' x y = attr_at b x y).
Proof using.
  intros s b n P R O C. pose proof (reached_current s b P R C) as W. pose proof W as W0. destruct W0 as (W1 & W2 & _ & _ & W5 & W6).
  split; [intros N; cbn [WcModel.do_call]; unfold ClearLines; now replace (n <=? 0) with true by lia|]. intros N top. set (k := cy b - top + 1).
  exists (set_cursor (fill_txt b 32 (bw b * k) 0 top) 0 top). split.
  - cbn [WcModel.do_call]. unfold ClearLines. replace (n <=? 0) with false by lia. unfold bind. rewrite (getpos s b O C). rewrite (info s b O C). unfold get. cbn [fst snd]. cbv zeta.
    replace (if cy b - n + 1 <? 0 then (0, cy b + 1) else (cy b - n + 1, n)) with (top, k) by (unfold k, top; destruct (cy b - n + 1 <? 0) eqn:E; f_equal; lia).
    cbv iota beta. rewrite int16_id by (unfold top; lia). rewrite (fillchar s b _ _ _ _ O C).
    set (b1 := fill_txt b 32 (bw b * k) 0 top). rewrite (setpos (with_buf s b1) b1 0 top O (current_with s b b1 C)); [now rewrite with_with|apply wf_fill, W|]. unfold cell. cbn. unfold top. lia.
  - split; [repeat split|]. split; [reflexivity|]. split; [reflexivity|]. intros x y (X & Y). pose proof (index_in (bw b) (bh b) x y X Y) as IN. split; [|reflexivity].
    unfold char_at, set_cursor, fill_txt, fill. cbn [bw bh txt]. pose proof (lex (bw b) 0 top x y ltac:(lia) X) as L1. pose proof (lex (bw b) 0 (cy b + 1) x y ltac:(lia) X) as L2.
    replace (top * bw b + 0 + bw b * k) with ((cy b + 1) * bw b + 0) by (unfold k; nia).
    destruct ((top <=? y) && (y <=? cy b)) eqn:E.
    + replace (top * bw b + 0 <=? y * bw b + x) with true by lia. replace (y * bw b + x <? (cy b + 1) * bw b + 0) with true by lia. replace (y * bw b + x <? bw b * bh b) with true by lia. reflexivity.
    + destruct (Z.le_gt_cases top y); [replace (y * bw b + x <? (cy b + 1) * bw b + 0) with false by lia; now rewrite andb_false_r|]. replace (top * bw b + 0 <=? y * bw b + x) with false by lia. reflexivity.
Qed.
(** ReadScreenBuffer returns the screen, row by row. *)
Theorem C234_read : forall s b, sane -> reached s -> orc s = [] -> current s = Some b ->
  exists rows, ReadScreenBuffer s = (Some rows, s) /\ Z.of_nat (length rows) = bh b /\
  forall y, 0 <= y < bh b -> exists row, nth_error rows (Z.to_nat y) = Some row /\ Z.of_nat (length row) = bw b /\
  forall x, 0 <= x < bw b -> nth_error row (Z.to_nat x) = Some (char_at b x y).
Proof using.
  intros s b P R O C. pose proof (reached_current s b P R C) as W. destruct W as (W1 & W2 & _). eexists. split.
  - unfold ReadScreenBuffer, bind. rewrite (info s b O C). unfold get, ReadOutput. rewrite (on_buf_ok s b _ _ b O C eq_refl). rewrite with_same by exact C. reflexivity.
  - rewrite map_length, seq_length. split; [lia|]. intros y Y. eexists. split.
    { apply map_nth_error. rewrite nth_error_nth' with (d := 0%nat) by (rewrite seq_length; lia). rewrite seq_nth by lia. reflexivity. }
    rewrite map_length, seq_length. split; [lia|]. intros x X.
    rewrite (map_nth_error _ (Z.to_nat x) _ (d := Z.to_nat x)) by (rewrite nth_error_nth' with (d := 0%nat) by (rewrite seq_length; lia); rewrite seq_nth by lia; reflexivity).
    pose proof (index_in (bw b) (bh b) x y X Y) as IN. f_equal. cbn [Nat.add].
    assert (E : (Z.to_nat y * Z.to_nat (bw b) + Z.to_nat x)%nat = Z.to_nat (y * bw b + x)) by nia. rewrite E.
    rewrite nth_indep with (d' := txt b (Z.of_nat 0)) by (rewrite map_length, seq_length; nia).
    rewrite (map_nth (fun i => txt b (Z.of_nat i)) _ 0%nat). rewrite seq_nth by nia. unfold char_at. f_equal. nia.
Qed.

(* ---------- C235 ---------- *)

(** IsInAltScreen tells whether the user sees another buffer than the one the program started with. *)
Theorem C235_alt_flag : forall s, sane -> reached s -> (IsInAltScreen s = true <-> active (device s) <> 0%nat).
Proof using.
  intros s P R. destruct (reached_inv s P R) as (_ & A & _ & _ & K). unfold IsInAltScreen. rewrite A. destruct (inAlt (obj s)); [destruct K as (_ & _ & K)|]; split; congruence.
Qed.
(** Entering twice or leaving twice is refused without any effect. *)
Theorem C235_twice : forall s, sane -> reached s ->
  (IsInAltScreen s = true -> do_call TmModel.EnterAltScreen s = (None, s)) /\ (IsInAltScreen s = false -> do_call TmModel.ExitAltScreen s = (None, s)) /\
  (IsInRawMode s = true -> do_call TmModel.EnterRawMode s = (None, s)) /\ (IsInRawMode s = false -> do_call TmModel.ExitRawMode s = (None, s)).
Proof using.
  intros s P R. pose proof (reached_inv s P R) as I. unfold IsInAltScreen, IsInRawMode. split; [exact (proj1 (enter_alt s I))|]. split; [exact (proj1 (exit_alt s I))|].
  cbn [WcModel.do_call]. unfold EnterRawMode, ExitRawMode, bind, get. split; intros ->; reflexivity.
Qed.
(** Entering: the user sees a blank screen as large as the window; every other buffer is kept.  A refusal changes nothing the user can see. *)
Theorem C235_enter : forall s b, sane -> reached s -> IsInAltScreen s = false -> visible s = Some b ->
  let (r, s') := do_call TmModel.EnterAltScreen s in
  IsInAltScreen s' = (match r with Some _ => true | None => false end) /\
  imode (device s') = imode (device s) /\ IsInRawMode s' = IsInRawMode s /\ buf_of (device s') 0 = Some b /\
  match r with
  | None => visible s' = Some b
  | Some _ => exists b', visible s' = Some b' /\ bw b' = ww b /\ bh b' = wh b /\ ww b' = ww b /\ wh b' = wh b /\ cx b' = 0 /\ cy b' = 0 /\ vis b' = true /\
              forall x y, cell b' x y -> char_at b' x y = 32 /\ attr_at b' x y = def b
  end.
Proof using.
  intros s b P R A V. pose proof (reached_inv s P R) as I. cbn [WcModel.do_call]. pose proof (proj2 (enter_alt s I) A) as E. destruct (EnterAltScreen close_ok s) as [r s1].
  destruct E as (I1 & M1 & R1 & _ & _ & B1 & K). pose proof I as (W & Ac & _ & _ & Z). unfold IsInAltScreen in A. rewrite A in Z.
  unfold visible in V. rewrite Ac, Z in V. pose proof (buf_of_len _ _ _ V) as L. unfold IsInAltScreen, IsInRawMode.
  assert (B0 : buf_of (device s1) 0 = Some b) by (rewrite B1; auto).
  destruct r as [u|].
  - destruct K as (K1 & K2 & (b0 & K3 & K4) & _). rewrite K3 in V. injection V as ->. split; [exact K1|]. split; [exact M1|]. split; [exact R1|]. split; [exact B0|].
    exists (fresh b). unfold visible. destruct I1 as (_ & Ac1 & _). rewrite Ac1, K4. do 8 (split; [reflexivity|]). intros x y _. split; reflexivity.
  - destruct K as (K1 & K2 & K3 & _). split; [exact K1|]. split; [exact M1|]. split; [exact R1|]. split; [exact B0|]. unfold visible. rewrite K3, Ac, Z. exact B0.
Qed.
(** When Windows refuses nothing, entering and leaving succeed. *)
Theorem C235_succeeds : forall s, sane -> reached s -> orc s = [] ->
  (IsInAltScreen s = false -> fst (do_call TmModel.EnterAltScreen s) = Some tt) /\ (IsInAltScreen s = true -> fst (do_call TmModel.ExitAltScreen s) = Some tt) /\
  (IsInRawMode s = false -> fst (do_call TmModel.EnterRawMode s) = Some tt) /\ (IsInRawMode s = true -> fst (do_call TmModel.ExitRawMode s) = Some tt).
Proof using.
  intros s P R O. pose proof (reached_inv s P R) as (W & Ac & (b0 & B0) & (b & B) & K). unfold IsInAltScreen, IsInRawMode. cbn [WcModel.do_call]. split; [|split; [|split]]; intros A.
  - rewrite A in K. unfold EnterAltScreen, bind, get. rewrite A. unfold put_obj, CreateBuffer, sys. cbn [device obj orc saved]. rewrite O. cbn [TmModel.ask]. rewrite Ac, B.
    cbn [device obj orc saved]. unfold SetActive, sys. cbn [device obj orc saved TmModel.ask]. rewrite buf_of_app, Nat.eqb_refl. reflexivity.
  - rewrite A in K. destruct K as (K1 & K2 & K3). unfold ExitAltScreen, bind, get. rewrite A. cbn [negb]. unfold SetActive, sys. rewrite O. cbn [TmModel.ask]. rewrite K1, B0, K2. reflexivity.
  - unfold EnterRawMode, bind, get. rewrite A. unfold GetMode, sys. rewrite O. cbn [TmModel.ask]. unfold put_obj, SetMode, sys. cbn [device obj orc saved TmModel.ask]. reflexivity.
  - unfold ExitRawMode, bind, get. rewrite A. cbn [negb]. unfold SetMode, sys. rewrite O. cbn [TmModel.ask]. reflexivity.
Qed.

(** Calls between entering and leaving: anything but writing and switching screens (writes: C236). *)
Definition stays (c : TmModel.call) : bool := match c with TmModel.Write _ | TmModel.WriteAt _ _ _ | TmModel.EnterAltScreen | TmModel.ExitAltScreen => false | _ => true end.
Lemma stays_keeps cs : forall s, sane -> inv s -> inAlt (obj s) = true -> forallb stays cs = true ->
  inAlt (obj (do_calls cs s)) = true /\ buf_of (device (do_calls cs s)) 0 = buf_of (device s) 0.
Proof using.
  induction cs as [|c cs IH]; intros s P I A F; [auto|]. cbn [forallb] in F. apply andb_prop in F as [F1 F2]. cbn [WcModel.do_calls fold_left].
  change (fold_left _ cs ?s) with (do_calls cs s). pose proof (call_inv c s P I) as I1.
  assert (N : out (obj s) <> 0%nat) by (destruct I as (_ & _ & _ & _ & K); rewrite A in K; tauto).
  assert (K : inAlt (obj (snd (do_call c s))) = true /\ buf_of (device (snd (do_call c s))) 0 = buf_of (device s) 0).
  { pose proof (plain_call c s P I) as H. destruct c; try discriminate F1; try (destruct (H Logic.I) as (_ & H1 & _ & _ & _ & H2); rewrite H1; split; [exact A|]; apply H2; [congruence|reflexivity]); clear H; cbn [WcModel.do_call].
    - destruct (raw_calls s I _ (or_introl eq_refl)) as (_ & H1 & _ & _ & H2 & _). split; [congruence|]. unfold buf_of. now rewrite H1.
    - destruct (raw_calls s I _ (or_intror eq_refl)) as (_ & H1 & _ & _ & H2 & _). split; [congruence|]. unfold buf_of. now rewrite H1. }
  destruct K as (K1 & K2). destruct (IH _ P I1 K1 F2) as (E1 & E2). split; [exact E1|]. now rewrite E2.
Qed.
(** Leaving brings back the screen as it was on entering: text, attributes, cursor. *)
Theorem C235_round_trip : forall s b s1 cs s3, sane -> reached s -> visible s = Some b ->
  do_call TmModel.EnterAltScreen s = (Some tt, s1) -> forallb stays cs = true ->
  do_call TmModel.ExitAltScreen (do_calls cs s1) = (Some tt, s3) ->
  visible s3 = Some b /\ current s3 = Some b /\ IsInAltScreen s3 = false.
Proof using.
  intros s b s1 cs s3 P R V E F X. pose proof (reached_inv s P R) as I. pose proof (C235_twice s P R) as (T & _). unfold IsInAltScreen in T.
  destruct (inAlt (obj s)) eqn:A; [rewrite T in E by reflexivity; discriminate|]. pose proof (C235_enter s b P R A V) as H. rewrite E in H. destruct H as (H1 & _ & _ & H2 & _).
  pose proof (call_inv TmModel.EnterAltScreen s P I) as I1. rewrite E in I1. cbn [snd] in I1. destruct (stays_keeps cs s1 P I1 H1 F) as (K1 & K2).
  pose proof (calls_inv cs s1 P I1) as I2. set (s2 := do_calls cs s1) in *. cbn [WcModel.do_call] in X. pose proof (proj2 (exit_alt s2 I2) K1) as Y. rewrite X in Y.
  destruct Y as (I3 & _ & _ & _ & _ & _ & Y1 & Y2 & Y3 & Y4 & _). assert (N : out (obj s2) <> 0%nat) by (destruct I2 as (_ & _ & _ & _ & K); rewrite K1 in K; tauto).
  unfold visible, current. rewrite Y3, Y4. rewrite Y1 by congruence. rewrite K2, H2. auto.
Qed.

(** Raw mode: the flag tells the mode of the input; the mode the program started with comes back exactly. *)
Definition raw_inv (mode : Z) (s : st) : Prop := if inRaw (obj s) then imode (device s) = raw_mode mode /\ omode (obj s) = mode else imode (device s) = mode.
Lemma raw_inv_call mode c s : sane -> inv s -> raw_inv mode s -> raw_inv mode (snd (do_call c s)).
Proof using.
  intros P I Q. pose proof (plain_call c s P I) as H. unfold raw_inv in *. destruct c; try (destruct (H Logic.I) as (_ & H1 & _ & H2 & _); rewrite H1, H2; exact Q); clear H; cbn [WcModel.do_call].
  - destruct (enter_alt s I) as [E1 E2]. destruct (inAlt (obj s)) eqn:A; [rewrite E1 by auto; exact Q|]. specialize (E2 eq_refl). destruct (EnterAltScreen close_ok s). cbn [snd]. destruct E2 as (_ & -> & -> & -> & _). exact Q.
  - destruct (exit_alt s I) as [E1 E2]. destruct (inAlt (obj s)) eqn:A; [|rewrite E1 by auto; exact Q]. specialize (E2 eq_refl). destruct (ExitAltScreen close_ok s). cbn [snd]. destruct E2 as (_ & -> & -> & -> & _). exact Q.
  - unfold EnterRawMode, bind, get. destruct (inRaw (obj s)) eqn:A; [cbn [snd fail]; unfold fail; cbn [snd]; now rewrite A|]. unfold GetMode, sys. destruct (TmModel.ask (orc s)) as [[|] o1]; [|cbn; now rewrite ?A].
    unfold put_obj, SetMode, sys. cbn [device obj orc saved]. destruct (TmModel.ask o1) as [[|] o2]; cbn [snd obj device inRaw imode omode]; [now rewrite Q|now rewrite ?A].
  - unfold ExitRawMode, bind, get. destruct (inRaw (obj s)) eqn:A; [|unfold fail; cbn [negb snd]; now rewrite ?A]. cbn [negb]. destruct Q as (Q1 & Q2). unfold SetMode, sys. destruct (TmModel.ask (orc s)) as [[|] o1]; cbn [snd obj device inRaw imode omode put_obj]; [unfold put_obj; cbn; exact Q2|rewrite ?A; auto].
Qed.
Theorem C235_raw_mode : forall b mode o cs, sane -> wf_buf b -> let s := do_calls cs (start b mode o) in
  (IsInRawMode s = false -> imode (device s) = mode) /\
  (IsInRawMode s = true -> forall i, 0 <= i -> Z.testbit (imode (device s)) i = if (i <? 3) then false else if i =? 9 then true else Z.testbit mode i).
Proof using.
  intros b mode o cs P W s. assert (Q : raw_inv mode s).
  { unfold s. clear s. assert (K : forall s, inv s -> raw_inv mode s -> raw_inv mode (do_calls cs s)).
    { induction cs as [|c cs IH]; intros s I Q; [exact Q|]. cbn [WcModel.do_calls fold_left]. apply IH; [now apply call_inv|now apply raw_inv_call]. }
    apply K; [now apply inv_start|]. reflexivity. }
  unfold raw_inv, IsInRawMode in *. destruct (inRaw (obj s)); split; try discriminate; [|intros _; exact Q]. intros _ i H. destruct Q as (-> & _). unfold raw_mode.
  rewrite Z.lor_spec, Z.ldiff_spec. change (Z.lor (Z.lor 2 4) 1) with (Z.ones 3).
  change 512 with (2 ^ 9). rewrite Z.pow2_bits_eqb by lia. rewrite Z.testbit_ones_nonneg by lia. destruct (i <? 3) eqn:E; [replace (9 =? i) with false by lia; now rewrite andb_false_r|].
  cbn [negb]. rewrite andb_true_r. destruct (i =? 9) eqn:E2; [replace (9 =? i) with true by lia; apply orb_true_r|replace (9 =? i) with false by lia; apply orb_false_r].
Qed.

(** As long as closing a handle works, no screen buffer is left behind, whatever fails. *)
Theorem C235_no_leak : forall s h b, sane -> (forall h, close_ok h = true) -> reached s -> buf_of (device s) h = Some b -> h = 0%nat \/ (IsInAltScreen s = true /\ h = active (device s)).
Proof using.
  intros s h b P CO (b0 & m & o & cs & W & ->). revert h b. assert (K : forall s, inv s -> (forall h b, buf_of (device s) h = Some b -> h = 0%nat \/ (inAlt (obj s) = true /\ h = active (device s))) ->
    forall h b, buf_of (device (do_calls cs s)) h = Some b -> h = 0%nat \/ (inAlt (obj (do_calls cs s)) = true /\ h = active (device (do_calls cs s)))).
  { induction cs as [|c cs IH]; intros s I Q; [exact Q|]. cbn [WcModel.do_calls fold_left]. change (fold_left _ cs ?s) with (do_calls cs s). apply IH; [now apply call_inv|]. clear IH. intros h b B.
    pose proof I as (_ & Ac & _ & (bo & Bo) & Z). pose proof (call_inv c s P I) as I1. pose proof (plain_call c s P I) as H.
    destruct c; try (destruct (H Logic.I) as (_ & H1 & H2 & _ & _ & H3); rewrite H1, H2; destruct (Nat.eq_dec h (out (obj s))) as [->|N];
      [exact (Q _ _ Bo)|]; destruct (Nat.eq_dec h 0) as [->|N0]; [now left|]; rewrite H3 in B by congruence; exact (Q _ _ B)); clear H; cbn [WcModel.do_call] in *.
    - destruct (enter_alt s I) as [E1 E2]. destruct (inAlt (obj s)) eqn:A; [rewrite E1 in * by auto; cbn [snd] in *; rewrite A; exact (Q _ _ B)|]. specialize (E2 eq_refl).
      destruct (EnterAltScreen close_ok s) as [r s1]. cbn [snd] in *. destruct E2 as (_ & _ & _ & _ & _ & E2 & E3). destruct (Nat.lt_ge_cases h (length (bufs (device s)))) as [L|L].
      { rewrite E2 in B by exact L. destruct (Q _ _ B) as [->|[]]; [now left|discriminate]. }
      destruct r as [u|].
      + destruct E3 as (E4 & E5 & _ & E6). right. split; [exact E4|]. destruct I1 as (_ & -> & _). rewrite E5. destruct (Nat.eq_dec h (length (bufs (device s)))) as [|N]; [assumption|]. rewrite E6 in B by lia. discriminate.
      + destruct E3 as (_ & _ & _ & E6). rewrite E6 in B by auto. discriminate.
    - destruct (exit_alt s I) as [E1 E2]. destruct (inAlt (obj s)) eqn:A; [|rewrite E1 in * by auto; cbn [snd] in *; rewrite A; exact (Q _ _ B)]. specialize (E2 eq_refl).
      destruct (ExitAltScreen close_ok s) as [r s1]. cbn [snd] in *. destruct E2 as (_ & _ & _ & _ & _ & _ & E2 & E3). destruct r as [u|].
      + destruct E3 as (_ & _ & _ & E4). left. destruct (Nat.eq_dec h (out (obj s))) as [->|N]; [rewrite E4 in B by apply CO; discriminate|]. rewrite E2 in B by exact N. destruct (Q _ _ B) as [->|[_ E]]; [reflexivity|]. congruence.
      + destruct E3 as (E3 & E4). rewrite E3, E4, A in *. exact (Q _ _ B).
    - destruct (raw_calls s I _ (or_introl eq_refl)) as (_ & H1 & H2 & _ & H3 & _). rewrite H2, H3. apply (Q h b). unfold buf_of in *. now rewrite <- H1.
    - destruct (raw_calls s I _ (or_intror eq_refl)) as (_ & H1 & H2 & _ & H3 & _). rewrite H2, H3. apply (Q h b). unfold buf_of in *. now rewrite <- H1. }
  apply K; [now apply inv_start|]. intros h b B. left. unfold start, buf_of in B. cbn [device bufs] in B. destruct h as [|[|h]]; cbn in B; [reflexivity|discriminate|destruct h; discriminate].
Qed.

(* ---------- C236 ---------- *)

(** Outside the alternate screen a write is printed on the screen, and WriteAt from the given cell on. *)
Theorem C277_write : forall s b t x y, sane -> reached s -> orc s = [] -> IsInAltScreen s = false -> visible s = Some b ->
  (exists s', do_call (TmModel.Write t) s = (Some tt, s') /\ visible s' = Some (put t b)) /\
  (cell b x y -> exists s', do_call (TmModel.WriteAt x y t) s = (Some tt, s') /\ visible s' = Some (put t (Buf (bw b) (bh b) (ww b) (wh b) (txt b) (atr b) (def b) x y (vis b) (csz b)))).
Proof using.
  intros s b t x y P R O A V. pose proof (reached_inv s P R) as (W & Ac & _ & _ & Z). unfold IsInAltScreen in A. rewrite A in Z.
  assert (C : current s = Some b) by (unfold current; rewrite <- Ac; exact V).
  assert (K : forall s b, orc s = [] -> out (obj s) = 0%nat -> active (device s) = 0%nat -> current s = Some b -> exists s', Write put t s = (Some tt, s') /\ visible s' = Some (put t b)).
  { clear. intros s b O Z Ac C. eexists. split; [unfold Write; rewrite <- Z; exact (on_buf_ok s b _ tt (put t b) O C eq_refl)|].
    unfold visible. change (buf_of (set_buf (device s) (out (obj s)) (Some (put t b))) (active (device s)) = Some (put t b)). rewrite Ac, <- Z at 1. exact (current_with s b _ C). }
  split.
  - apply K; try assumption. now rewrite Ac.
  - intros X. cbn [WcModel.do_call]. unfold WriteAt, bind. rewrite (setpos s b x y O C (W _ _ V) X). apply K; [exact O|exact Z| |exact (current_with s b _ C)]. change (active (device s) = 0%nat). now rewrite Ac.
Qed.
(** In the alternate screen nothing that is written appears: it goes to the hidden original screen. *)
Theorem C236_alt_screen_refuted : forall s t, sane -> reached s -> orc s = [] -> IsInAltScreen s = true ->
  exists s' b0, do_call (TmModel.Write t) s = (Some tt, s') /\ visible s' = visible s /\
  buf_of (device s) 0 = Some b0 /\ active (device s) <> 0%nat /\ buf_of (device s') 0 = Some (put t b0).
Proof using.
  intros s t P R O A. pose proof (reached_inv s P R) as (W & Ac & (b0 & B0) & _ & Z). unfold IsInAltScreen in A. rewrite A in Z. destruct Z as (_ & _ & Z).
  exists (St (obj s) (saved s) (set_buf (device s) 0 (Some (put t b0))) (orc s)), b0. cbn [WcModel.do_call]. unfold Write, on_buf, sys. rewrite O. cbn [TmModel.ask]. rewrite B0. split; [reflexivity|].
  rewrite Ac. unfold visible. cbn [device set_buf active]. change (buf_of (set_buf (device s) 0 (Some (put t b0))) (active (device s)) = buf_of (device s) (active (device s)) /\ Some b0 = Some b0 /\ out (obj s) <> 0%nat /\ buf_of (set_buf (device s) 0 (Some (put t b0))) 0 = Some (put t b0)).
  rewrite !(buf_of_set _ _ b0 _ B0). rewrite Ac. replace (Nat.eqb (out (obj s)) 0) with false by (symmetry; now apply Nat.eqb_neq). auto.
Qed.

(* ---------- C237 ---------- *)

(** ClearLine moves the cursor to the first column. *)
Theorem C237_cursor_refuted : forall s b, sane -> reached s -> orc s = [] -> current s = Some b -> 0 < cx b ->
  exists b', do_call TmModel.ClearLine s = (Some tt, with_buf s b') /\ cx b' <> cx b.
Proof using. intros s b P R O C X. destruct (C234_clear_line s b P R O C) as (b' & E & _ & Q & _). exists b'. split; [exact E|]. lia. Qed.

(* ---------- C238 ---------- *)

(** Size gives the size of the buffer, scrollback included; that is the window's when they agree, as in the alternate screen. *)
Theorem C238_size_partial : forall s b, sane -> reached s -> orc s = [] -> current s = Some b -> bw b = ww b -> bh b = wh b -> Size s = (Some (ww b, wh b), s).
Proof using. intros s b P R O C X Y. unfold Size, bind. rewrite (info s b O C). now rewrite X, Y. Qed.
Theorem C238_size_refuted : forall s b, sane -> reached s -> orc s = [] -> current s = Some b -> wh b < bh b -> exists h, Size s = (Some (bw b, h), s) /\ wh b < h.
Proof using. intros s b P R O C X. exists (bh b). split; [|exact X]. unfold Size, bind. now rewrite (info s b O C). Qed.

(* ---------- C239 ---------- *)

Definition keeps {A} (m : M A) : Prop := forall s, saved (snd (m s)) = saved s.
Lemma keeps_bind {A B} (m : M A) (k : A -> M B) : keeps m -> (forall x, keeps (k x)) -> keeps (bind m k).
Proof using. clear. intros M K s. unfold bind. specialize (M s). destruct (m s) as [[x|] s1]; cbn [snd] in *; [now rewrite K|exact M]. Qed.
Lemma keeps_sys {A} (f : dev -> option (A * dev)) : keeps (sys f).
Proof using. clear. intros s. unfold sys. destruct (TmModel.ask (orc s)) as [[|] o]; [|reflexivity]. destruct (f (device s)) as [[x d]|]; reflexivity. Qed.
Lemma keeps_call c s : c <> TmModel.SaveCursorPosition -> saved (snd (do_call c s)) = saved s.
Proof using.
  intros N. assert (G : forall A (k : con -> M A), (forall c, keeps (k c)) -> keeps (bind get k)) by (intros A k K; apply keeps_bind; [now intros ?|exact K]).
  assert (F : forall A, keeps (@fail A)) by now intros ?. assert (T : forall c, keeps (put_obj c)) by now intros ? ?. assert (H : keeps (ret tt)) by now intros ?.
  assert (O : forall A h (f : buf -> option (A * buf)), keeps (on_buf h f)) by (intros; apply keeps_sys).
  assert (SP : forall x y, keeps (SetCursorPosition x y)) by (intros; apply G; intros; apply O).
  assert (RI : keeps refreshInfo) by (apply G; intros; apply O). assert (GP : keeps GetCursorPosition) by (apply keeps_bind; [exact RI|now intros ? ?]).
  assert (CH : forall h, keeps (CloseHandle close_ok h)) by (intros h q; unfold CloseHandle; cbn [snd]; destruct (close_ok h); reflexivity).
  assert (FC : forall h v n x y, keeps (FillChar h v n x y)) by (intros; apply O). assert (FA : forall h v n x y, keeps (FillAttr h v n x y)) by (intros; apply O).
  assert (GC : forall h, keeps (GetCursorInfo h)) by (intros; apply O). assert (SC : forall h v n, keeps (SetCursorInfo h v n)) by (intros; apply O).
  assert (WR : forall t, keeps (Write put t)) by (intros; apply O).
  assert (GM : keeps GetMode) by apply keeps_sys. assert (SM : forall m, keeps (SetMode m)) by (intros; apply keeps_sys). assert (SA : forall h, keeps (SetActive h)) by (intros; apply keeps_sys). assert (CB : keeps CreateBuffer) by apply keeps_sys.
  revert s. change (keeps (do_call c)). destruct c; cbn [WcModel.do_call]; try congruence.
  all: unfold MoveCursorUp, MoveCursorDown, MoveCursorLeft, MoveCursorRight, HideCursor, ShowCursor, SetCursorStyle, Clear, ClearLine, ClearFromCursor, ClearLines, WriteAt, EnterRawMode, ExitRawMode.
  all: try match goal with |- context [?n <=? 0] => destruct (n <=? 0); [exact H|] end.
  all: try solve [repeat first [apply SP | apply RI | apply GP | apply WR | apply FC | apply FA | apply GC | apply SC | apply T | apply GM | apply SM | apply F | apply H
    | apply keeps_bind; [|intros ?] | apply G; intros ? | match goal with |- keeps (if ?b then _ else _) => destruct b end | match goal with |- context [if ?b then (_, _) else _] => destruct b end; cbv beta iota | progress cbv zeta]].
  - unfold RestoreCursorPosition. intros q. apply SP.
  - unfold EnterAltScreen. apply G. intros c. destruct (inAlt c); [apply F|]. apply keeps_bind; [apply T|intros _]. apply keeps_bind; [apply CB|intros h]. apply G. intros c2. apply keeps_bind; [apply T|intros _]. intros q.
    pose proof (SA h q) as Q. destruct (SetActive h q) as [[u|] q1]; cbn [snd] in Q.
    + rewrite <- Q. apply (G _ (fun c => put_obj (Con h (orig c) (alt c) true (inRaw c) (omode c)))). intros. apply T.
    + rewrite <- Q. revert q1 Q. intros q1 _. apply (keeps_bind (CloseHandle close_ok h)); [apply CH|intros _]. apply G. intros c3. apply keeps_bind; [apply T|intros _]. apply F.
  - unfold ExitAltScreen. apply G. intros c. destruct (negb (inAlt c)); [apply F|]. apply keeps_bind; [apply SA|intros _]. apply keeps_bind; [destruct (alt c); [apply CH|apply H]|intros _]. apply G. intros c2. apply T.
Qed.
(** Saving, then anything but saving again, then restoring: the cursor is back where it was (if that is still inside the screen). *)
Theorem C278_restore : forall s b s1 cs b2, sane -> reached s -> orc s = [] -> current s = Some b ->
  do_call TmModel.SaveCursorPosition s = (Some tt, s1) -> (forall c, In c cs -> c <> TmModel.SaveCursorPosition) ->
  let s2 := do_calls cs s1 in orc s2 = [] -> current s2 = Some b2 -> cell b2 (cx b) (cy b) ->
  exists b3, do_call TmModel.RestoreCursorPosition s2 = (Some tt, with_buf s2 b3) /\ cursor_at b2 (cx b) (cy b) b3.
Proof using.
  intros s b s1 cs b2 P R O C E N s2 O2 C2 X. pose proof (reached_inv s P R) as I. pose proof (call_inv TmModel.SaveCursorPosition s P I) as I1. rewrite E in I1. cbn [snd] in I1.
  assert (S1 : saved s1 = (cx b, cy b)). { cbn [WcModel.do_call] in E. unfold SaveCursorPosition, bind in E. rewrite (getpos s b O C) in E. injection E as <-. reflexivity. }
  assert (S2 : saved s2 = (cx b, cy b)). { rewrite <- S1. unfold s2. clear - N. revert s1. induction cs as [|c cs IH]; intros s1; [reflexivity|]. cbn [WcModel.do_calls fold_left]. change (fold_left _ cs ?s) with (do_calls cs s).
    rewrite IH by (intros; apply N; now right). apply keeps_call. apply N. now left. }
  pose proof (calls_inv cs s1 P I1) as (W2 & _). fold s2 in W2. exists (set_cursor b2 (cx b) (cy b)). split; [|reflexivity]. cbn [WcModel.do_call]. unfold RestoreCursorPosition. rewrite S2. cbn [fst snd].
  apply setpos; auto. exact (W2 _ _ C2).
Qed.
(* ---------- C240, C241 ---------- *)

(** A position far outside is not refused: the coordinates wrap around at 65536. *)
Theorem C240_out_of_bounds_refuted : forall s b x y k l, sane -> reached s -> orc s = [] -> current s = Some b -> cell b x y ->
  do_call (TmModel.SetCursorPosition (x + 65536 * k) (y + 65536 * l)) s = do_call (TmModel.SetCursorPosition x y) s /\ fst (do_call (TmModel.SetCursorPosition x y) s) = Some tt.
Proof using.
  intros s b x y k l P R O C X. split.
  - cbn [WcModel.do_call]. unfold SetCursorPosition. replace (int16 (x + 65536 * k)) with (int16 x); [replace (int16 (y + 65536 * l)) with (int16 y); [reflexivity|]|];
    unfold int16; f_equal; [replace (y + 65536 * l + 32768) with (y + 32768 + l * 65536) by lia|replace (x + 65536 * k + 32768) with (x + 32768 + k * 65536) by lia]; now rewrite Z.mod_add by lia.
  - cbn [WcModel.do_call]. rewrite (setpos s b x y O C); [reflexivity|exact (reached_current s b P R C)|exact X].
Qed.
Theorem C279_in_range : forall s b x y, sane -> reached s -> orc s = [] -> current s = Some b -> -32768 <= x <= 32767 -> -32768 <= y <= 32767 ->
  (fst (do_call (TmModel.SetCursorPosition x y) s) = None <-> ~ cell b x y).
Proof using.
  intros s b x y P R O C X Y. destruct (C233_position s b x y P R O C) as (_ & H1 & H2). split.
  - intros H K. destruct (H1 K) as (b' & E & _). rewrite E in H. discriminate.
  - intros H. now rewrite (H2 X Y H).
Qed.
(** ClearLine, ClearFromCursor and ClearLines leave the colours of the cells they clear. *)
Theorem C241_colours_refuted : forall s b c, sane -> reached s -> orc s = [] -> current s = Some b -> In c [TmModel.ClearLine; TmModel.ClearFromCursor; TmModel.ClearLines 1] ->
  exists b', do_call c s = (Some tt, with_buf s b') /\ forall x y, cell b x y -> attr_at b' x y = attr_at b x y.
Proof using.
  intros s b c P R O C [<-|[<-|[<-|[]]]].
  - destruct (C234_clear_line s b P R O C) as (b' & E & _ & _ & _ & K). exists b'. split; [exact E|]. intros x y X. apply (K x y X).
  - destruct (C234_clear_from_cursor s b P R O C) as (b' & E & _ & _ & _ & K). exists b'. split; [exact E|]. intros x y X. apply (K x y X).
  - destruct (C234_clear_lines s b 1 P R O C) as (_ & K0). destruct (K0 eq_refl) as (b' & E & _ & _ & _ & K). exists b'. split; [exact E|]. intros x y X. apply (K x y X).
Qed.
Theorem C241_clear_partial : forall s b, sane -> reached s -> orc s = [] -> current s = Some b ->
  exists b', do_call TmModel.Clear s = (Some tt, with_buf s b') /\ forall x y, cell b x y -> attr_at b' x y = def b.
Proof using. intros s b P R O C. destruct (C234_clear s b P R O C) as (b' & E & _ & _ & _ & K). exists b'. split; [exact E|]. intros x y X. apply (K x y X). Qed.
End Console.

(* ---------- Examples and witnesses ---------- *)

(** A console 20 wide and 100 high of which 10 lines are shown; printing moves the cursor. *)
Definition ex_buf : buf := Buf 20 100 20 10 (fun i => 65 + i mod 26) (fun _ => 7) 7 3 4 true 25.
Definition ex_put (t : list Z) (b : buf) : buf := fill_txt b (hd 32 t) 1 (cx b) (cy b).
Lemma ex_wf : wf_buf ex_buf.
Proof. unfold wf_buf. cbn. lia. Qed.
Lemma ex_sane : sane ex_put.
Proof. intros s b W. exact W. Qed.
Definition ex_start : st := start ex_buf 7 [].
Lemma ex_reached cs : reached ex_put (fun _ => true) (do_calls ex_put (fun _ => true) cs ex_start).
Proof. exists ex_buf, 7, [], cs. split; [exact ex_wf|reflexivity]. Qed.
(** In the main screen; in the alternate screen and raw mode after some failures; both are reached, with hypotheses met. *)
Example C233_inhabited : let s := ex_start in reached ex_put (fun _ => true) s /\ orc s = [] /\ current s = Some ex_buf /\ cell ex_buf 19 99 /\ ~ cell ex_buf 20 99 /\ 0 < cx ex_buf /\ wh ex_buf < bh ex_buf /\ visible s = Some ex_buf /\ IsInAltScreen s = false.
Proof. split; [exact (ex_reached [])|]. repeat split; try reflexivity; cbn; unfold cell; cbn; lia. Qed.
Definition ex_fail : st := start ex_buf 7 [true; false; true; true].
Example C235_inhabited : let s := do_calls ex_put (fun _ => true) [TmModel.EnterAltScreen; TmModel.EnterAltScreen; TmModel.EnterRawMode] ex_fail in
  reached ex_put (fun _ => true) s /\ orc s = [] /\ IsInAltScreen s = true /\ IsInRawMode s = true /\ active (device s) = 2%nat /\ buf_of (device s) 1 = None /\ imode (device s) = 512 /\
  exists b, visible s = Some b /\ bh b = 10.
Proof. cbv zeta. split; [exists ex_buf, 7, [true; false; true; true], [TmModel.EnterAltScreen; TmModel.EnterAltScreen; TmModel.EnterRawMode]; split; [exact ex_wf|reflexivity]|]. repeat split; try (vm_compute; reflexivity). eexists. split; reflexivity. Qed.
Example C235_round_trip_inhabited : let s := ex_start in let cs := [TmModel.Clear; TmModel.SetCursorPosition 1 1; TmModel.EnterRawMode; TmModel.ClearLines 3] in
  let r := do_call ex_put (fun _ => true) TmModel.EnterAltScreen s in
  fst r = Some tt /\ forallb stays cs = true /\ fst (do_call ex_put (fun _ => true) TmModel.ExitAltScreen (do_calls ex_put (fun _ => true) cs (snd r))) = Some tt.
Proof. vm_compute. auto. Qed.

(* ---------- C239: counterexamples ---------- *)

Section Witness.
Let put := ex_put.
Let ok := fun _ : nat => true.
(** Saved positions do not form a stack: save at (1,1), save at (2,2), restore, restore ends at (2,2). *)
Theorem C239_stack_refuted : exists s, reached put ok s /\
  let at_ x y := [TmModel.SetCursorPosition x y; TmModel.SaveCursorPosition] in
  let s' := do_calls put ok (at_ 1 1 ++ at_ 2 2 ++ [TmModel.SetCursorPosition 5 5; TmModel.RestoreCursorPosition; TmModel.RestoreCursorPosition]) s in
  fst (GetCursorPosition s') = Some (2, 2).
Proof. exists ex_start. split; [exact (ex_reached [])|]. vm_compute. reflexivity. Qed.
(** Nor does the position belong to the terminal object: a new object restores what another one saved. *)
Theorem C239_other_object_refuted : exists s, reached put ok s /\
  let s1 := do_calls put ok [TmModel.SetCursorPosition 6 7; TmModel.SaveCursorPosition; TmModel.SetCursorPosition 0 0] s in
  let s2 := St new_con (saved s1) (device s1) (orc s1) in
  fst (GetCursorPosition (snd (do_call put ok TmModel.RestoreCursorPosition s2))) = Some (6, 7).
Proof. exists ex_start. split; [exact (ex_reached [])|]. vm_compute. reflexivity. Qed.
End Witness.

Print Assumptions C233_current_is_visible. Print Assumptions C233_position. Print Assumptions C233_moves. Print Assumptions C233_cursor_look.
Print Assumptions C234_clear. Print Assumptions C234_clear_line. Print Assumptions C234_clear_from_cursor. Print Assumptions C234_clear_lines.
Print Assumptions C234_read. Print Assumptions C235_alt_flag. Print Assumptions C235_twice. Print Assumptions C235_enter.
Print Assumptions C235_succeeds. Print Assumptions C235_round_trip. Print Assumptions C235_raw_mode. Print Assumptions C235_no_leak.
Print Assumptions C277_write. Print Assumptions C236_alt_screen_refuted. Print Assumptions C237_cursor_refuted. Print Assumptions C238_size_partial.
Print Assumptions C238_size_refuted. Print Assumptions C278_restore. Print Assumptions C240_out_of_bounds_refuted. Print Assumptions C279_in_range.
Print Assumptions C241_colours_refuted. Print Assumptions C241_clear_partial. Print Assumptions C239_stack_refuted. Print Assumptions C239_other_object_refuted.
