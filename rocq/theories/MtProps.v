(** MockTerminal records every call exactly once under every schedule, its modes behave as the
    real terminal's, and where the test doubles contradict the interface. *)
From Verif Require Import Prelude Text MtModel.
From Verif Require TmModel.
From Coq Require Import String Ascii.
Notation length := List.length.
Open Scope list_scope.
Open Scope Z_scope.

(* ---------- Specification ---------- *)

(** The Go name of a method. *)
Definition method (c : mcall) : string :=
  match c with
  | Dev d => match d with
      | TmModel.SetCursorPosition _ _ => "SetCursorPosition" | TmModel.MoveCursorUp _ => "MoveCursorUp" | TmModel.MoveCursorDown _ => "MoveCursorDown"
      | TmModel.MoveCursorLeft _ => "MoveCursorLeft" | TmModel.MoveCursorRight _ => "MoveCursorRight" | TmModel.SaveCursorPosition => "SaveCursorPosition"
      | TmModel.RestoreCursorPosition => "RestoreCursorPosition" | TmModel.HideCursor => "HideCursor" | TmModel.ShowCursor => "ShowCursor"
      | TmModel.SetCursorStyle _ => "SetCursorStyle" | TmModel.Clear => "Clear" | TmModel.ClearLine => "ClearLine" | TmModel.ClearFromCursor => "ClearFromCursor"
      | TmModel.ClearLines _ => "ClearLines" | TmModel.Write _ => "Write" | TmModel.WriteAt _ _ _ => "WriteAt" | TmModel.EnterAltScreen => "EnterAltScreen"
      | TmModel.ExitAltScreen => "ExitAltScreen" | TmModel.EnterRawMode => "EnterRawMode" | TmModel.ExitRawMode => "ExitRawMode"
      end
  | GetCursorPosition => "GetCursorPosition" | ReadScreenBuffer => "ReadScreenBuffer" | Size => "Size" | ColorDepth => "ColorDepth"
  | SupportsDirectPositioning => "SupportsDirectPositioning" | SupportsReadback => "SupportsReadback" | SupportsTrueColor => "SupportsTrueColor"
  | Platform => "Platform" | IsInAltScreen => "IsInAltScreen" | IsInRawMode => "IsInRawMode" | CallCount _ => "CallCount" | Reset => "Reset"
  end%string.
Definition is_terminal_call (c : mcall) : bool := match c with CallCount _ | Reset => false | _ => true end.

(** Of a history of calls: those of the Terminal interface since the last Reset. *)
Definition since_reset (h : list mcall) : list mcall :=
  fold_left (fun l c => match c with Reset => [] | _ => if is_terminal_call c then l ++ [c] else l end) h [].
(** The alternate screen is on iff the last call that switched it was EnterAltScreen; likewise raw mode. *)
Definition alt_on (h : list mcall) : bool :=
  fold_left (fun b c => match c with Dev TmModel.EnterAltScreen => true | Dev TmModel.ExitAltScreen => false | _ => b end) h false.
Definition raw_on (h : list mcall) : bool :=
  fold_left (fun b c => match c with Dev TmModel.EnterRawMode => true | Dev TmModel.ExitRawMode => false | _ => b end) h false.

(** The answer due to a call made after the history h. *)
Definition due (h : list mcall) (c : mcall) (r : res) : Prop :=
  match c with
  | Dev TmModel.EnterAltScreen => r = if alt_on h then Err else Ok
  | Dev TmModel.ExitAltScreen => r = if alt_on h then Ok else Err
  | Dev TmModel.EnterRawMode => r = if raw_on h then Err else Ok
  | Dev TmModel.ExitRawMode => r = if raw_on h then Ok else Err
  | Dev _ | ReadScreenBuffer | Reset => r = Ok
  | IsInAltScreen => r = Bool (alt_on h)
  | IsInRawMode => r = Bool (raw_on h)
  | CallCount m => ~ In 40 m -> (* no parenthesis in the name asked for *)
      r = Num (Z.of_nat (length (filter (fun c => if list_eq_dec Z.eq_dec (codes (method c)) m then true else false) (since_reset h))))
  | GetCursorPosition => r = Pair 0 0
  | Size => r = Pair 80 24
  | ColorDepth => r = Num 256
  | SupportsDirectPositioning | SupportsReadback => r = Bool false
  | SupportsTrueColor => r = Bool true
  | Platform => r = Num 0
  end.

Definition call_of (e : nat * mcall * res) : mcall := snd (fst e).
Definition by_thread (i : nat) (evs : list (nat * mcall * res)) : list mcall := map call_of (filter (fun e => Nat.eqb (fst (fst e)) i) evs).
(** All goroutines have made all their calls. *)
Definition finished (cf : config) : Prop := Forall (fun th => at_ th = Idle /\ todo th = []) (snd cf).

Section Quote.
Variable quote : list Z -> list Z.
Notation text := (text quote).
Notation step := (step quote).
Notation exec := (exec quote).

(** How a recorded call reads: the name, followed by its arguments in parentheses if it has any. *)
Definition reads (c : mcall) (t : list Z) : Prop := t = codes (method c) \/ exists args, t = codes (method c) ++ [40] ++ args ++ [41].

(* ---------- Proofs ---------- *)

Lemma reads1 c n a : method c = n -> reads c (c1 n a).
Proof using. intros <-. right. exists a. reflexivity. Qed.
Lemma reads2 c n a b : method c = n -> reads c (c2 n a b).
Proof using. intros <-. right. exists (a ++ [44; 32] ++ b). unfold c2. now rewrite !app_assoc. Qed.
Lemma reads3 c n a b d : method c = n -> reads c (c3 n a b d).
Proof using. intros <-. right. exists (a ++ [44; 32] ++ b ++ [44; 32] ++ d). unfold c3. now rewrite !app_assoc. Qed.
Lemma reads0 c n : method c = n -> reads c (codes n).
Proof using. intros <-. left. reflexivity. Qed.
Lemma text_reads c : is_terminal_call c = true -> exists t, text c = Some t /\ reads c t.
Proof using.
  destruct c as [d| | | | | | | | | | |m|]; try discriminate; intros _; [destruct d|..]; eexists; (split; [cbn [MtModel.text]; reflexivity|]);
  first [apply reads1; reflexivity|apply reads2; reflexivity|apply reads3; reflexivity|apply reads0; reflexivity].
Qed.
Lemma text_none c : is_terminal_call c = false -> text c = None.
Proof using. destruct c; try discriminate; reflexivity. Qed.

Lemma name_no_paren c : ~ In 40 (codes (method c)).
Proof using.
  assert (K : existsb (Z.eqb 40) (codes (method c)) = false) by (destruct c as [d| | | | | | | | | | |m|]; [destruct d|..]; vm_compute; reflexivity).
  intros H. rewrite (proj2 (existsb_exists (Z.eqb 40) _)) in K; [discriminate|]. exists 40. auto.
Qed.

Lemma matches_spec m : ~ In 40 m -> forall n args, ~ In 40 n -> matches m n = (if list_eq_dec Z.eq_dec n m then true else false) /\
  matches m (n ++ 40 :: args) = (if list_eq_dec Z.eq_dec n m then true else false).
Proof using.
  clear quote. induction m as [|x m IH]; intros M n args N.
  - destruct n as [|y n]; cbn; [split; reflexivity|]. cbn in N. assert (y <> 40) by tauto. replace (y =? 40) with false by lia. auto.
  - destruct n as [|y n].
    + cbn. cbn in M. replace (x =? 40) with false by (assert (x <> 40) by tauto; lia). auto.
    + cbn [app matches]. cbn in M, N. destruct (IH ltac:(tauto) n args ltac:(tauto)) as [E1 E2]. rewrite E1, E2.
      destruct (list_eq_dec Z.eq_dec n m) as [Q|Q], (Z.eq_dec x y) as [P|P]; subst;
      rewrite ?Z.eqb_refl, ?(proj2 (Z.eqb_neq x y) P); cbn [andb]; destruct (list_eq_dec Z.eq_dec _ _); try congruence; auto.
Qed.
Lemma matches_text m c t : ~ In 40 m -> text c = Some t -> matches m t = if list_eq_dec Z.eq_dec (codes (method c)) m then true else false.
Proof using.
  intros M E. assert (I : is_terminal_call c = true) by (destruct c; try reflexivity; discriminate E).
  destruct (text_reads c I) as (t' & E' & [->|(a & ->)]); rewrite E in E'; assert (X : t = _) by (injection E'; intros; eassumption); rewrite X; apply matches_spec; auto using name_no_paren.
Qed.

(** The list Calls after the history h. *)
Definition texts (h : list mcall) : list (list Z) := flat_map (fun c => match text c with Some t => [t] | None => [] end) (since_reset h).

Lemma since_snoc h c : since_reset (h ++ [c]) = match c with Reset => [] | _ => if is_terminal_call c then since_reset h ++ [c] else since_reset h end.
Proof using. unfold since_reset. rewrite fold_left_app. reflexivity. Qed.
Lemma texts_snoc h c t : text c = Some t -> texts (h ++ [c]) = texts h ++ [t].
Proof using.
  intros E. unfold texts. rewrite since_snoc. assert (I : is_terminal_call c = true) by (destruct c; try reflexivity; discriminate E).
  assert (K : match c with Reset => [] | _ => if is_terminal_call c then since_reset h ++ [c] else since_reset h end = since_reset h ++ [c]) by (rewrite I; destruct c; try reflexivity; discriminate E).
  rewrite K, flat_map_app. cbn [flat_map]. rewrite E. now rewrite app_nil_r.
Qed.
Lemma since_terminal h : Forall (fun c => is_terminal_call c = true) (since_reset h).
Proof using. clear quote.
  induction h as [|c h IH] using rev_ind; [constructor|]. rewrite since_snoc.
  destruct c as [d| | | | | | | | | | |m|]; cbn [is_terminal_call]; auto; try constructor; apply Forall_app; auto.
Qed.
Lemma count_texts m h : ~ In 40 m -> count m (texts h) =
  Z.of_nat (length (filter (fun c => if list_eq_dec Z.eq_dec (codes (method c)) m then true else false) (since_reset h))).
Proof using.
  intros M. unfold count, texts. f_equal. pose proof (since_terminal h) as F. induction F as [|c l I F IH]; [reflexivity|].
  cbn [flat_map filter]. destruct (text_reads c I) as (t & E & _). rewrite E. cbn [app filter]. rewrite (matches_text m c t M E).
  destruct (list_eq_dec Z.eq_dec _ _); cbn [length]; now rewrite IH.
Qed.
Lemma alt_snoc h c : alt_on (h ++ [c]) = match c with Dev TmModel.EnterAltScreen => true | Dev TmModel.ExitAltScreen => false | _ => alt_on h end.
Proof using. unfold alt_on. rewrite fold_left_app. reflexivity. Qed.
Lemma raw_snoc h c : raw_on (h ++ [c]) = match c with Dev TmModel.EnterRawMode => true | Dev TmModel.ExitRawMode => false | _ => raw_on h end.
Proof using. unfold raw_on. rewrite fold_left_app. reflexivity. Qed.

Lemma finish_due h c m m' r : is_terminal_call c = true -> inAlt m = alt_on h -> inRaw m = raw_on h -> finish c m = (m', r) ->
  due h c r /\ inAlt m' = alt_on (h ++ [c]) /\ inRaw m' = raw_on (h ++ [c]) /\ mu m' = mu m /\ calls m' = calls m.
Proof using. clear quote.
  intros I A R F. rewrite alt_snoc, raw_snoc. destruct m as [a w u cs]. cbn in A, R. subst a w.
  destruct c as [d| | | | | | | | | | |w|]; try discriminate I; [destruct d|..]; cbn [finish inAlt inRaw mu calls] in F;
  try (destruct (alt_on h) eqn:HA); try (destruct (raw_on h) eqn:HR); cbn [negb] in F; injection F as <- <-; cbn [inAlt inRaw mu calls due];
  rewrite ?HA, ?HR; auto.
Qed.

(** The invariant: nobody inside, or exactly the holder of the mutex. *)
Definition quiet (m : mock) (h : list mcall) : Prop := inAlt m = alt_on h /\ inRaw m = raw_on h /\ calls m = texts h.
Definition inside (m : mock) (h : list mcall) (p : pc) : Prop :=
  match p with
  | Idle => False
  | Locked c => quiet m h
  | Read c t l => text c = Some t /\ l = calls m /\ quiet m h
  | Stored c => is_terminal_call c = true /\ inAlt m = alt_on h /\ inRaw m = raw_on h /\ calls m = texts (h ++ [c])
  | Done c r => due h c r /\ quiet m (h ++ [c])
  end.
Definition inv (cf : config) (h : list mcall) : Prop :=
  let (m, ts) := cf in
  match mu m with
  | None => quiet m h /\ Forall (fun th => at_ th = Idle) ts
  | Some i => exists th, nth_error ts i = Some th /\ inside m h (at_ th) /\ forall j th', j <> i -> nth_error ts j = Some th' -> at_ th' = Idle
  end.
(** The calls a goroutine has not yet completed. *)
Definition pending (th : thread) : list mcall :=
  match at_ th with Idle => [] | Locked c | Read c _ _ | Stored c | Done c _ => [c] end ++ todo th.

Lemma nth_set_same {A} (l : list A) i x y : nth_error l i = Some y -> nth_error (set_nth l i x) i = Some x.
Proof using. clear quote. revert i. induction l as [|z l IH]; intros [|i] H; try discriminate; cbn in *; auto. Qed.
Lemma nth_set_other {A} (l : list A) i j x : j <> i -> nth_error (set_nth l i x) j = nth_error l j.
Proof using. clear quote. revert i j. induction l as [|z l IH]; intros [|i] [|j] H; cbn; auto; try congruence; apply IH; congruence. Qed.
Lemma set_length {A} (l : list A) i x : length (set_nth l i x) = length l.
Proof using. clear quote. revert i. induction l as [|z l IH]; intros [|i]; cbn; auto. Qed.
Lemma all_idle ts : Forall (fun th => at_ th = Idle) ts <-> forall j th, nth_error ts j = Some th -> at_ th = Idle.
Proof using. clear quote.
  split.
  - intros F j th H. rewrite Forall_forall in F. exact (F th (nth_error_In _ _ H)).
  - intros H. apply Forall_forall. intros th K. apply In_nth_error in K. destruct K as [j K]. exact (H j th K).
Qed.

Lemma step_inv i cf cf' ev h : inv cf h -> step i cf = Some (cf', ev) ->
  (match ev with
   | None => inv cf' h
   | Some (j, c, r) => j = i /\ due h c r /\ inv cf' (h ++ [c])
   end) /\
  (forall j, option_map pending (nth_error (snd cf) j) =
     option_map (fun th => match ev with Some (k, c, _) => if Nat.eqb k j then c :: pending th else pending th | None => pending th end) (nth_error (snd cf') j)).
Proof using.
  destruct cf as [m ts]. intros V. unfold MtModel.step. destruct (nth_error ts i) as [th|] eqn:E; [|discriminate]. cbv zeta.
  assert (P : forall (m' : mock) p q (ev : option (nat * mcall * res)), pending th = (match ev with Some (_, c, _) => [c] | None => [] end) ++ pending (Thread p q) ->
    (match ev with Some (k, _, _) => k = i | None => True end) ->
    forall j, option_map pending (nth_error (snd (m, ts)) j) =
      option_map (fun th => match ev with Some (k, c, _) => if Nat.eqb k j then c :: pending th else pending th | None => pending th end) (nth_error (snd (m', set_nth ts i (Thread p q))) j)).
  { intros m' p q e Q K j. cbn [snd]. destruct (Nat.eq_dec j i) as [->|N].
    - rewrite (nth_set_same ts i _ th E), E. cbn [option_map]. rewrite Q. destruct e as [[[k c] r]|]; [subst k; now rewrite Nat.eqb_refl|reflexivity].
    - rewrite nth_set_other by exact N. destruct e as [[[k c] r]|]; [subst k; rewrite (proj2 (Nat.eqb_neq i j)) by congruence|]; reflexivity. }
  assert (OTH : forall x, (forall j th', j <> i -> nth_error ts j = Some th' -> at_ th' = Idle) ->
     forall j th', j <> i -> nth_error (set_nth ts i x) j = Some th' -> at_ th' = Idle).
  { intros x O j th' N. rewrite nth_set_other by exact N. now apply O. }
  destruct (at_ th) as [|c|c t l|c|c r] eqn:A.
  - (* Lock *)
    destruct (todo th) as [|c q] eqn:T; [discriminate|]. unfold inv in V. destruct (mu m) eqn:M; [discriminate|]. destruct V as [Q F]. intros H. injection H as <- <-.
    split; [|apply (P _ _ _ None); [unfold pending; now rewrite A, T|exact Logic.I]]. unfold inv. cbn [mu]. eexists. split; [eapply nth_set_same; exact E|]. split; [exact Q|].
    apply OTH. intros j th' N J. rewrite all_idle in F. exact (F j th' J).
  - assert (M : mu m = Some i /\ quiet m h /\ forall j th', j <> i -> nth_error ts j = Some th' -> at_ th' = Idle).
    { unfold inv in V. destruct (mu m) as [k|] eqn:M.
      - destruct V as (th0 & E0 & I0 & O0). destruct (Nat.eq_dec k i) as [->|N]; [|rewrite (O0 i th ltac:(congruence) E) in A; discriminate].
        assert (th0 = th) by congruence. subst th0. rewrite A in I0. auto.
      - destruct V as [_ F]. rewrite all_idle in F. rewrite (F i th E) in A. discriminate. }
    destruct M as (M & Q & O). clear V.
    assert (INT : is_terminal_call c = true -> forall t, text c = Some t -> forall cf0 ev0, Some ((m, set_nth ts i (Thread (Read c t (calls m)) (todo th))), @None (nat * mcall * res)) = Some (cf0, ev0) ->
      (match ev0 with None => inv cf0 h | Some (j, c, r) => j = i /\ due h c r /\ inv cf0 (h ++ [c]) end) /\
      (forall j, option_map pending (nth_error (snd (m, ts)) j) = option_map (fun th => match ev0 with Some (k, c, _) => if Nat.eqb k j then c :: pending th else pending th | None => pending th end) (nth_error (snd cf0) j))).
    { intros I t T cf0 ev0 H. injection H as <- <-. split; [|apply (P _ _ _ None); [unfold pending; now rewrite A|exact Logic.I]].
      unfold inv. rewrite M. eexists. split; [eapply nth_set_same; exact E|]. split; [|now apply OTH]. cbn [at_ inside]. auto. }
    destruct (is_terminal_call c) eqn:I.
    + destruct (text_reads c I) as (t & T & _). intros H. refine (INT eq_refl t T cf' ev _). refine (eq_trans _ H). rewrite T. destruct c; try reflexivity; discriminate I.
    + destruct c as [d| | | | | | | | | | |w|]; try discriminate I; intros H; injection H as <- <-; (split; [|apply (P _ _ _ None); [unfold pending; now rewrite A|exact Logic.I]]);
      unfold inv; cbn [mu]; rewrite M; eexists; (split; [eapply nth_set_same; exact E|]); (split; [|now apply OTH]); cbn [at_ inside due].
      * destruct Q as (Q1 & Q2 & Q3). split; [intros W; rewrite Q3; f_equal; now apply count_texts|]. unfold quiet. rewrite alt_snoc, raw_snoc. unfold texts. rewrite since_snoc. auto.
      * destruct Q as (Q1 & Q2 & Q3). split; [reflexivity|]. unfold quiet. rewrite alt_snoc, raw_snoc. unfold texts. rewrite since_snoc. cbn. auto.
  - assert (M : mu m = Some i /\ (text c = Some t /\ l = calls m /\ quiet m h) /\ forall j th', j <> i -> nth_error ts j = Some th' -> at_ th' = Idle).
    { unfold inv in V. destruct (mu m) as [k|] eqn:M.
      - destruct V as (th0 & E0 & I0 & O0). destruct (Nat.eq_dec k i) as [->|N]; [|rewrite (O0 i th ltac:(congruence) E) in A; discriminate].
        assert (th0 = th) by congruence. subst th0. rewrite A in I0. auto.
      - destruct V as [_ F]. rewrite all_idle in F. rewrite (F i th E) in A. discriminate. }
    destruct M as (M & (T & L & Q1 & Q2 & Q3) & O). intros H. injection H as <- <-. split; [|apply (P _ _ _ None); [unfold pending; now rewrite A|exact Logic.I]].
    unfold inv. cbn [mu]. rewrite M. eexists. split; [eapply nth_set_same; exact E|]. split; [|now apply OTH]. cbn [at_ inside inAlt inRaw calls].
    split; [destruct c; try reflexivity; discriminate T|]. rewrite (texts_snoc h c t T), L, Q3. auto.
  - assert (M : mu m = Some i /\ (is_terminal_call c = true /\ inAlt m = alt_on h /\ inRaw m = raw_on h /\ calls m = texts (h ++ [c])) /\ forall j th', j <> i -> nth_error ts j = Some th' -> at_ th' = Idle).
    { unfold inv in V. destruct (mu m) as [k|] eqn:M.
      - destruct V as (th0 & E0 & I0 & O0). destruct (Nat.eq_dec k i) as [->|N]; [|rewrite (O0 i th ltac:(congruence) E) in A; discriminate].
        assert (th0 = th) by congruence. subst th0. rewrite A in I0. auto.
      - destruct V as [_ F]. rewrite all_idle in F. rewrite (F i th E) in A. discriminate. }
    destruct M as (M & (I & Q1 & Q2 & Q3) & O). destruct (finish c m) as [m' r] eqn:F. intros H. injection H as <- <-. split; [|apply (P _ _ _ None); [unfold pending; now rewrite A|exact Logic.I]].
    destruct (finish_due h c m m' r I Q1 Q2 F) as (D & D1 & D2 & D3 & D4).
    unfold inv. rewrite D3, M. eexists. split; [eapply nth_set_same; exact E|]. split; [|now apply OTH]. cbn [at_ inside]. split; [exact D|]. unfold quiet. rewrite D4. auto.
  - assert (M : mu m = Some i /\ (due h c r /\ quiet m (h ++ [c])) /\ forall j th', j <> i -> nth_error ts j = Some th' -> at_ th' = Idle).
    { unfold inv in V. destruct (mu m) as [k|] eqn:M.
      - destruct V as (th0 & E0 & I0 & O0). destruct (Nat.eq_dec k i) as [->|N]; [|rewrite (O0 i th ltac:(congruence) E) in A; discriminate].
        assert (th0 = th) by congruence. subst th0. rewrite A in I0. auto.
      - destruct V as [_ F]. rewrite all_idle in F. rewrite (F i th E) in A. discriminate. }
    destruct M as (M & (D & Q) & O). intros H. injection H as <- <-. split; [|apply (P _ _ _ (Some (i, c, r))); [unfold pending; now rewrite A|reflexivity]].
    split; [reflexivity|]. split; [exact D|]. unfold inv. cbn [mu]. split; [exact Q|]. apply all_idle. intros j th' J. destruct (Nat.eq_dec j i) as [->|N].
    + rewrite (nth_set_same ts i _ th E) in J. injection J as <-. reflexivity.
    + rewrite nth_set_other in J by exact N. exact (O j th' N J).
Qed.

Lemma inv_start ps : inv (start ps) [].
Proof using. unfold inv, start, new_mock. cbn [mu]. split; [repeat split|]. apply Forall_forall. intros th H. apply in_map_iff in H. destruct H as (p & <- & _). reflexivity. Qed.

Lemma exec_inv sched : forall cf h, inv cf h -> let (cf', evs) := exec sched cf in
  inv cf' (h ++ map call_of evs) /\
  (forall k i c r, nth_error evs k = Some (i, c, r) -> due (h ++ map call_of (firstn k evs)) c r) /\
  (forall j, option_map pending (nth_error (snd cf) j) = option_map (fun th => by_thread j evs ++ pending th) (nth_error (snd cf') j)).
Proof using.
  induction sched as [|i s IH]; intros cf h V.
  - cbn [MtModel.exec]. cbn [map]. rewrite app_nil_r. split; [exact V|]. split; [intros [|k] ? ? ? H; discriminate H|]. intros j. unfold by_thread. cbn. destruct (nth_error (snd cf) j); reflexivity.
  - cbn [MtModel.exec]. destruct (MtModel.step quote i cf) as [[cf1 ev]|] eqn:E; [|now apply IH]. destruct (step_inv i cf cf1 ev h V E) as [S P].
    destruct ev as [[[k c] r]|].
    + destruct S as (-> & D & V1). specialize (IH cf1 (h ++ [c]) V1). destruct (MtModel.exec quote s cf1) as [cf2 evs]. destruct IH as (I1 & I2 & I3).
      cbn [map call_of fst snd]. rewrite <- app_assoc in I1. cbn [app] in I1. split; [exact I1|]. split.
      * intros [|k] j c' r' H; cbn [nth_error firstn map call_of fst snd] in *.
        { injection H as <- <- <-. rewrite app_nil_r. exact D. }
        { specialize (I2 k j c' r' H). rewrite <- app_assoc in I2. exact I2. }
      * intros j. rewrite P. specialize (I3 j). unfold by_thread. cbn [filter fst]. destruct (nth_error (snd cf1) j) as [t1|], (nth_error (snd cf2) j) as [t2|]; cbn [option_map] in *; try congruence.
        assert (X : pending t1 = by_thread j evs ++ pending t2) by congruence. f_equal. destruct (Nat.eqb i j); cbn [map call_of fst snd app]; [f_equal|]; exact X.
    + specialize (IH cf1 h S). destruct (MtModel.exec quote s cf1) as [cf2 evs]. destruct IH as (I1 & I2 & I3). split; [exact I1|]. split; [exact I2|].
      intros j. rewrite P. rewrite <- I3. destruct (nth_error (snd cf1) j); reflexivity.
Qed.

(* ---------- C228 ---------- *)

(** Whatever goroutines run which calls under whatever schedule: each call returns what is due
    after exactly the calls that returned before it. *)
Theorem C228_answers : forall ps sched, let evs := snd (exec sched (start ps)) in
  forall k i c r, nth_error evs k = Some (i, c, r) -> due (map call_of (firstn k evs)) c r.
Proof using.
  intros ps sched evs. pose proof (exec_inv sched (start ps) [] (inv_start ps)) as H. unfold evs. destruct (exec sched (start ps)) as [cf e]. destruct H as (_ & H & _). exact H.
Qed.
(** Each goroutine's calls return in its program's order, none twice, none missing. *)
Theorem C228_program_order : forall ps sched i p, nth_error ps i = Some p -> let evs := snd (exec sched (start ps)) in
  exists rest, p = by_thread i evs ++ rest /\ (finished (fst (exec sched (start ps))) -> rest = []).
Proof using.
  intros ps sched i p Hp evs. pose proof (exec_inv sched (start ps) [] (inv_start ps)) as H. unfold evs. destruct (exec sched (start ps)) as [cf e]. destruct H as (_ & _ & H). specialize (H i).
  unfold start in H. cbn [snd fst] in *. rewrite (map_nth_error _ _ _ Hp) in H. cbn [option_map] in H. destruct (nth_error (snd cf) i) as [th|] eqn:E; [|discriminate]. cbn [option_map] in H.
  exists (pending th). split; [unfold pending at 1 in H; cbn [at_ todo] in H; cbn [app] in H; congruence|]. intros F. unfold finished in F. rewrite Forall_forall in F. destruct (F th (nth_error_In _ _ E)) as [A B]. unfold pending. now rewrite A, B.
Qed.
(** Once all goroutines are done, Calls holds the recorded text of every terminal call since the
    last Reset, once each and in the order of their returns. *)
Theorem C228_nothing_lost : forall ps sched, let (cf, evs) := exec sched (start ps) in finished cf ->
  map Some (calls (fst cf)) = map text (since_reset (map call_of evs)) /\ inAlt (fst cf) = alt_on (map call_of evs) /\ inRaw (fst cf) = raw_on (map call_of evs).
Proof using.
  intros ps sched. pose proof (exec_inv sched (start ps) [] (inv_start ps)) as H. destruct (exec sched (start ps)) as [cf e]. destruct H as (V & _ & _). intros F. cbn [app] in V.
  destruct cf as [m ts]. unfold inv in V. cbn [fst].
  assert (Q : quiet m (map call_of e)).
  { destruct (mu m) as [k|] eqn:M; [|exact (proj1 V)]. destruct V as (th & E & I & _). unfold finished in F. cbn [snd] in F. rewrite Forall_forall in F.
    destruct (F th (nth_error_In _ _ E)) as [A _]. rewrite A in I. contradiction. }
  destruct Q as (Q1 & Q2 & Q3). split; [|auto]. rewrite Q3. unfold texts. pose proof (since_terminal (map call_of e)) as T. induction T as [|c l I T IH]; [reflexivity|].
  cbn [flat_map map]. destruct (text_reads c I) as (t & X & _). rewrite X. cbn [app map]. now rewrite IH.
Qed.
(** Nobody waits forever: as long as a call is missing, some goroutine can move; and every
    schedule can be continued until all are done. *)
Theorem C228_no_deadlock : forall ps sched, let cf := fst (exec sched (start ps)) in ~ finished cf -> exists i, step i cf <> None.
Proof using.
  intros ps sched. pose proof (exec_inv sched (start ps) [] (inv_start ps)) as H. destruct (exec sched (start ps)) as [[m ts] e]. destruct H as (V & _ & _). cbn [fst]. intros N.
  unfold inv in V. destruct (mu m) as [k|] eqn:M.
  - destruct V as (th & E & I & _). exists k. unfold MtModel.step. rewrite E. cbv zeta. destruct (at_ th) as [|c|c t l|c|c r]; [contradiction|..]; try discriminate.
    + destruct c; try discriminate; destruct (MtModel.text quote _); discriminate.
    + destruct (finish c m); discriminate.
  - destruct V as [_ F]. rewrite all_idle in F.
    assert (X : exists i th c q, nth_error ts i = Some th /\ todo th = c :: q).
    { destruct (Exists_dec (fun th => todo th <> []) ts) as [X|X].
      - intros th. destruct (todo th); [right; congruence|left; discriminate].
      - apply Exists_exists in X. destruct X as (th & J & T). apply In_nth_error in J. destruct J as [i J]. destruct (todo th) as [|c q] eqn:Q; [congruence|]. eauto 6.
      - exfalso. apply N. unfold finished. cbn [snd]. apply Forall_forall. intros th J. split; [apply In_nth_error in J; destruct J as [i J]; eauto|].
        destruct (todo th) eqn:Q; [reflexivity|]. exfalso. apply X. apply Exists_exists. exists th. split; [exact J|congruence]. }
    destruct X as (i & th & c & q & E & T). exists i. unfold MtModel.step. rewrite E. cbv zeta. rewrite (F i th E), T, M. discriminate.
Qed.
End Quote.

(** How much of its program a goroutine still has to go through, in steps. *)
Definition left_of (th : thread) : nat :=
  (match at_ th with Idle => 0 | Locked _ => 4 | Read _ _ _ => 3 | Stored _ => 2 | Done _ _ => 1 end + 5 * length (todo th))%nat.
Definition total (cf : config) : nat := list_sum (map left_of (snd cf)).
Lemma sum_set ts i th x : nth_error ts i = Some th -> (left_of x < left_of th)%nat -> (list_sum (map left_of (set_nth ts i x)) < list_sum (map left_of ts))%nat.
Proof. revert i. induction ts as [|y ts IH]; intros [|i] H L; try discriminate; cbn [nth_error set_nth map] in *; unfold list_sum in *; cbn [fold_right] in *; [injection H as ->; lia|]. specialize (IH i H L). lia. Qed.
Lemma step_total quote i cf cf' ev : step quote i cf = Some (cf', ev) -> (total cf' < total cf)%nat.
Proof.
  destruct cf as [m ts]. unfold step. destruct (nth_error ts i) as [th|] eqn:E; [|discriminate]. cbv zeta. unfold total. intros H.
  assert (K : exists p q, snd cf' = set_nth ts i (Thread p q) /\ (left_of (Thread p q) < left_of th)%nat).
  { unfold left_of. destruct (at_ th) as [|c|c t l|c|c r] eqn:A.
    - destruct (todo th) as [|c q] eqn:T; [discriminate|]. destruct (mu m); [discriminate|]. injection H as <- _. eexists _, _. split; [reflexivity|]. cbn [at_ todo length]. lia.
    - destruct c; try (destruct (text quote _)); injection H as <- _; eexists _, _; (split; [reflexivity|]); cbn [at_ todo]; lia.
    - injection H as <- _. eexists _, _. split; [reflexivity|]. cbn [at_ todo]; lia.
    - destruct (finish c m). injection H as <- _. eexists _, _. split; [reflexivity|]. cbn [at_ todo]; lia.
    - injection H as <- _. eexists _, _. split; [reflexivity|]. cbn [at_ todo]; lia. }
  destruct K as (p & q & -> & L). cbn [snd]. exact (sum_set ts i th _ E L).
Qed.
Lemma exec_app quote s1 : forall s2 cf, fst (exec quote (s1 ++ s2) cf) = fst (exec quote s2 (fst (exec quote s1 cf))).
Proof.
  induction s1 as [|i s1 IH]; intros s2 cf; [reflexivity|]. cbn [app exec]. destruct (step quote i cf) as [[cf1 ev]|]; [|apply IH].
  specialize (IH s2 cf1). destruct (exec quote s1 cf1) as [c1 e1]. destruct (exec quote (s1 ++ s2) cf1) as [c2 e2]. cbn [fst] in *. exact IH.
Qed.
Lemma finished_dec cf : finished cf \/ ~ finished cf.
Proof.
  unfold finished. destruct (Forall_dec (fun th => at_ th = Idle /\ todo th = [])) with (l := snd cf) as [H|H]; auto.
  intros th. destruct (at_ th); try (right; intros [? _]; discriminate). destruct (todo th); [left|right; intros [_ ?]]; auto; discriminate.
Qed.
(** Every schedule can be continued until all calls have returned. *)
Theorem C228_completes : forall quote ps sched, exists more, finished (fst (exec quote (sched ++ more) (start ps))).
Proof.
  intros quote ps sched. remember (total (fst (exec quote sched (start ps)))) as n eqn:N. revert sched N.
  induction n as [n IH] using lt_wf_ind. intros sched N. destruct (finished_dec (fst (exec quote sched (start ps)))) as [F|F].
  - exists []. rewrite app_nil_r. exact F.
  - destruct (C228_no_deadlock quote ps sched F) as [i S]. destruct (step quote i (fst (exec quote sched (start ps)))) as [[cf ev]|] eqn:E; [|congruence].
    pose proof (step_total quote i _ _ _ E) as L. assert (X : fst (exec quote (sched ++ [i]) (start ps)) = cf) by (rewrite exec_app; cbn [exec]; rewrite E; reflexivity).
    destruct (IH (total cf) ltac:(lia) (sched ++ [i]) ltac:(now rewrite X)) as [more M]. exists (i :: more). rewrite <- app_assoc in M. exact M.
Qed.
Example C228_ex : let ps := [[Dev TmModel.Clear; Dev TmModel.EnterAltScreen]; [Dev TmModel.EnterAltScreen; CallCount (codes "EnterAltScreen")]] in
  let (cf, evs) := exec (fun s => s) [0; 1; 0; 0; 1; 0; 0; 1; 1; 0; 1; 1; 1; 0; 0; 0; 0; 0; 1; 1; 1]%nat (start ps) in
  finished cf /\ calls (fst cf) = [codes "Clear"; codes "EnterAltScreen"; codes "EnterAltScreen"] /\
  map snd evs = [Ok; Ok; Err; Num 2].
Proof. vm_compute. repeat split. repeat constructor. Qed.

(* ---------- C229 ---------- *)

(** A recorded call reads as the method's name, or the name with its arguments in parentheses. *)
Theorem C229_readable : forall quote c, is_terminal_call c = true -> exists t, text quote c = Some t /\ reads c t.
Proof. exact text_reads. Qed.
(** CallCount(name) counts the calls of the method with that name and of no other, whatever their arguments. *)
Theorem C229_count : forall quote m cs ts, ~ In 40 m -> map (text quote) cs = map Some ts ->
  count m ts = Z.of_nat (length (filter (fun c => if list_eq_dec Z.eq_dec (codes (method c)) m then true else false) cs)).
Proof.
  intros quote m cs. unfold count. induction cs as [|c cs IH]; intros [|t ts] M E; try discriminate; [reflexivity|]. cbn [map] in E.
  assert (E1 : text quote c = Some t) by congruence. assert (E2 : map (text quote) cs = map Some ts) by congruence. cbn [filter]. rewrite (matches_text quote m c t M E1).
  specialize (IH ts M E2). destruct (list_eq_dec Z.eq_dec _ _); cbn [length]; lia.
Qed.

Fixpoint upto (p : Z) (s : list Z) : list Z := match s with [] => [] | x :: r => if x =? p then [] else x :: upto p r end.
Lemma upto_app p a b : ~ In p a -> upto p (a ++ p :: b) = a.
Proof. induction a as [|x a IH]; intros H; cbn; [now rewrite Z.eqb_refl|]. cbn in H. rewrite (proj2 (Z.eqb_neq x p)) by tauto. f_equal. tauto. Qed.
Lemma upto_none p a : ~ In p a -> upto p a = a.
Proof. induction a as [|x a IH]; intros H; cbn; [reflexivity|]. cbn in H. rewrite (proj2 (Z.eqb_neq x p)) by tauto. f_equal. tauto. Qed.
Lemma split_at (p : Z) a b c d : ~ In p a -> ~ In p c -> a ++ p :: b = c ++ p :: d -> a = c /\ b = d.
Proof.
  intros A C E. assert (a = c) by (rewrite <- (upto_app p a b A), E; now apply upto_app). subst c. split; [reflexivity|]. apply app_inv_head in E. congruence.
Qed.
Lemma name_of_text quote c t : text quote c = Some t -> upto 40 t = codes (method c).
Proof.
  intros E. assert (I : is_terminal_call c = true) by (destruct c; try reflexivity; discriminate E). destruct (text_reads quote c I) as (t' & E' & R).
  assert (t = t') by congruence. subst t'. pose proof (name_no_paren c) as N. destruct R as [->|(a & ->)]; [now apply upto_none|]. now apply upto_app.
Qed.
Lemma num_inj a b : num a = num b -> a = b.
Proof.
  unfold num. destruct (a <? 0) eqn:A, (b <? 0) eqn:B; intros H.
  - assert (dec (- a) = dec (- b)) by congruence. assert (- a = - b) by (apply dec_inj; auto; lia). lia.
  - destruct (dec_spec b ltac:(lia)) as (_ & D & _). rewrite <- H in D. discriminate D.
  - destruct (dec_spec a ltac:(lia)) as (_ & D & _). rewrite H in D. discriminate D.
  - apply dec_inj; auto; lia.
Qed.
Lemma num_no_comma a : ~ In 44 (num a).
Proof.
  assert (K : forall n, 0 <= n -> ~ In 44 (dec n)).
  { intros n H I. destruct (dec_spec n H) as (_ & D & _). rewrite forallb_forall in D. specialize (D 44 I). discriminate D. }
  unfold num. destruct (a <? 0) eqn:A; [intros [X|X]; [discriminate|revert X; apply K; lia]|apply K; lia].
Qed.
Lemma codes_inj a b : codes a = codes b -> a = b.
Proof.
  unfold codes. revert b. induction a as [|x a IH]; intros [|y b] H; try discriminate; [reflexivity|]. cbn [list_ascii_of_string map] in H.
  assert (H1 : Z.of_N (N_of_ascii x) = Z.of_N (N_of_ascii y)) by congruence. apply N2Z.inj in H1.
  f_equal; [rewrite <- (ascii_N_embedding x), <- (ascii_N_embedding y); congruence|]. apply IH. congruence.
Qed.
Lemma c1_inj n a b : c1 n a = c1 n b -> a = b.
Proof. unfold c1. intros H. apply app_inv_head in H. cbn [app] in H. assert (K : a ++ [41] = b ++ [41]) by congruence. now apply app_inv_tail in K. Qed.

(** The recorded text determines the call: two calls read the same only if they are the same call
    with the same arguments (styles by their name).  %q is taken to be one-to-one. *)
Definition same_call (c c' : mcall) : Prop :=
  c = c' \/ exists s s', c = Dev (TmModel.SetCursorStyle s) /\ c' = Dev (TmModel.SetCursorStyle s') /\ ~ (0 <= s <= 2) /\ ~ (0 <= s' <= 2).
Theorem C229_texts_distinct : forall quote, (forall a b, quote a = quote b -> a = b) ->
  forall c c' t, text quote c = Some t -> text quote c' = Some t -> same_call c c'.
Proof.
  intros quote Q c c' t E E'. pose proof (name_of_text quote c t E) as N. rewrite (name_of_text quote c' t E') in N. apply codes_inj in N.
  destruct c as [d| | | | | | | | | | |m|]; try discriminate E; [destruct d|..];
  (destruct c' as [d'| | | | | | | | | | |m'|]; try discriminate N; [destruct d'|..]; try discriminate N); clear N; try (left; reflexivity); cbn [text] in E, E'.
  - (* SetCursorPosition *)
    assert (K : c2 "SetCursorPosition" (num x) (num y) = c2 "SetCursorPosition" (num x0) (num y0)) by congruence. unfold c2 in K. apply app_inv_head in K. cbn [app] in K.
    assert (K' : num x ++ 44 :: 32 :: num y ++ [41] = num x0 ++ 44 :: 32 :: num y0 ++ [41]) by congruence. clear K.
    destruct (split_at 44 _ _ _ _ (num_no_comma x) (num_no_comma x0) K') as [A B]. apply num_inj in A. subst x0.
    assert (B' : num y ++ [41] = num y0 ++ [41]) by congruence. apply app_inv_tail in B'. apply num_inj in B'. subst y0. left. reflexivity.
  - assert (K : c1 "MoveCursorUp" (num n) = c1 "MoveCursorUp" (num n0)) by congruence. apply c1_inj, num_inj in K. left. congruence.
  - assert (K : c1 "MoveCursorDown" (num n) = c1 "MoveCursorDown" (num n0)) by congruence. apply c1_inj, num_inj in K. left. congruence.
  - assert (K : c1 "MoveCursorLeft" (num n) = c1 "MoveCursorLeft" (num n0)) by congruence. apply c1_inj, num_inj in K. left. congruence.
  - assert (K : c1 "MoveCursorRight" (num n) = c1 "MoveCursorRight" (num n0)) by congruence. apply c1_inj, num_inj in K. left. congruence.
  - assert (K : c1 "SetCursorStyle" (style_string s) = c1 "SetCursorStyle" (style_string s0)) by congruence. apply c1_inj in K. unfold style_string in K.
    destruct (s =? 0) eqn:A, (s0 =? 0) eqn:B; try (left; f_equal; f_equal; lia); try (destruct (s =? 1), (s0 =? 1); try discriminate K; destruct (s =? 2), (s0 =? 2); discriminate K).
    destruct (s =? 1) eqn:A1, (s0 =? 1) eqn:B1; try (left; f_equal; f_equal; lia); try (destruct (s =? 2), (s0 =? 2); discriminate K).
    destruct (s =? 2) eqn:A2, (s0 =? 2) eqn:B2; try (left; f_equal; f_equal; lia); try discriminate K. right. exists s, s0. repeat split; lia.
  - assert (K : c1 "ClearLines" (num n) = c1 "ClearLines" (num n0)) by congruence. apply c1_inj, num_inj in K. left. congruence.
  - assert (K : c1 "Write" (quote s) = c1 "Write" (quote s0)) by congruence. apply c1_inj, Q in K. left. congruence.
  - assert (K : c3 "WriteAt" (num x) (num y) (quote s) = c3 "WriteAt" (num x0) (num y0) (quote s0)) by congruence. unfold c3 in K. apply app_inv_head in K. cbn [app] in K.
    assert (K' : num x ++ 44 :: 32 :: num y ++ 44 :: 32 :: quote s ++ [41] = num x0 ++ 44 :: 32 :: num y0 ++ 44 :: 32 :: quote s0 ++ [41]) by congruence. clear K.
    destruct (split_at 44 _ _ _ _ (num_no_comma x) (num_no_comma x0) K') as [A B]. apply num_inj in A. subst x0. 
    assert (B' : num y ++ 44 :: 32 :: quote s ++ [41] = num y0 ++ 44 :: 32 :: quote s0 ++ [41]) by congruence. clear B K'.
    destruct (split_at 44 _ _ _ _ (num_no_comma y) (num_no_comma y0) B') as [A B]. apply num_inj in A. subst y0.
    assert (D : quote s ++ [41] = quote s0 ++ [41]) by congruence. apply app_inv_tail, Q in D. subst s0. left. reflexivity.
Qed.
(** Numbers are written in decimal, a minus sign before the negative ones. *)
Definition decimal (t : list Z) (z : Z) : Prop :=
  (0 <= z /\ t <> [] /\ forallb is_digit t = true /\ undec_acc 0 t = z) \/ (z < 0 /\ exists d, t = codes "-" ++ d /\ d <> [] /\ forallb is_digit d = true /\ undec_acc 0 d = - z).
Lemma num_decimal z : decimal (num z) z.
Proof.
  unfold decimal, num. destruct (z <? 0) eqn:N.
  - right. split; [lia|]. exists (dec (- z)). split; [reflexivity|]. destruct (dec_spec (- z) ltac:(lia)) as (A & B & _). split; [exact A|]. split; [exact B|]. apply dec_undec. lia.
  - left. split; [lia|]. destruct (dec_spec z ltac:(lia)) as (A & B & _). split; [exact A|]. split; [exact B|]. apply dec_undec. lia.
Qed.
Theorem C229_numbers : forall quote,
  (forall x y, exists a b, decimal a x /\ decimal b y /\ text quote (Dev (TmModel.SetCursorPosition x y)) = Some (codes "SetCursorPosition(" ++ a ++ codes ", " ++ b ++ codes ")")) /\
  (forall x y s, exists a b, decimal a x /\ decimal b y /\ text quote (Dev (TmModel.WriteAt x y s)) = Some (codes "WriteAt(" ++ a ++ codes ", " ++ b ++ codes ", " ++ quote s ++ codes ")")) /\
  forall n, exists a, decimal a n /\ text quote (Dev (TmModel.MoveCursorUp n)) = Some (codes "MoveCursorUp(" ++ a ++ codes ")") /\ text quote (Dev (TmModel.MoveCursorDown n)) = Some (codes "MoveCursorDown(" ++ a ++ codes ")") /\
    text quote (Dev (TmModel.MoveCursorLeft n)) = Some (codes "MoveCursorLeft(" ++ a ++ codes ")") /\ text quote (Dev (TmModel.MoveCursorRight n)) = Some (codes "MoveCursorRight(" ++ a ++ codes ")") /\
    text quote (Dev (TmModel.ClearLines n)) = Some (codes "ClearLines(" ++ a ++ codes ")").
Proof.
  intros quote. split; [intros x y; exists (num x), (num y); split; [apply num_decimal|]; split; [apply num_decimal|]; reflexivity|].
  split; [intros x y s; exists (num x), (num y); split; [apply num_decimal|]; split; [apply num_decimal|]; reflexivity|].
  intros n. exists (num n). split; [apply num_decimal|]. repeat split.
Qed.
Example C229_ex : text (fun s => 34 :: s ++ [34]) (Dev (TmModel.SetCursorPosition 10 (-5))) = Some (codes "SetCursorPosition(10, -5)") /\
  count (codes "Clear") [codes "Clear"; codes "ClearLine"; codes "ClearLines(3)"] = 1.
Proof. vm_compute. auto. Qed.

(* ---------- C230 ---------- *)

(** The device calls of a history. *)
Definition devs (h : list mcall) : list TmModel.call := flat_map (fun c => match c with Dev d => [d] | _ => [] end) h.

Section Real.
Variable cw : Z -> Z.
Variable T : Type.
Variable mkraw : T -> T.
(** The object is in order: it knows the settings to restore exactly while in raw mode. *)
Definition orderly (a : TmModel.ansi T) : Prop := TmModel.inRaw T a = true -> TmModel.orig T a <> None.

Lemma real_call c a d : orderly a ->
  let '(ok, o, a', d') := TmModel.do_call cw T mkraw c [] a d in
  o = [] /\ orderly a' /\
  TmModel.inAlt T a' = match c with TmModel.EnterAltScreen => true | TmModel.ExitAltScreen => false | _ => TmModel.inAlt T a end /\
  TmModel.inRaw T a' = match c with TmModel.EnterRawMode => true | TmModel.ExitRawMode => false | _ => TmModel.inRaw T a end /\
  ok = match c with
       | TmModel.EnterAltScreen => negb (TmModel.inAlt T a) | TmModel.ExitAltScreen => TmModel.inAlt T a
       | TmModel.EnterRawMode => negb (TmModel.inRaw T a) | TmModel.ExitRawMode => TmModel.inRaw T a
       | TmModel.SetCursorStyle s => (0 <=? s) && (s <=? 2) | _ => true
       end.
Proof using.
  intros O. destruct a as [x y g]. unfold orderly in *. cbn [TmModel.inAlt TmModel.inRaw TmModel.orig] in *.
  assert (W : forall ws dd, exists d', TmModel.do_writes cw T ws [] dd = (true, [], d')) by (induction ws as [|w ws IH]; intros dd; [eexists; reflexivity|apply IH]).
  destruct c; cbn [TmModel.do_call TmModel.writes TmModel.inAlt TmModel.inRaw TmModel.orig];
  try match goal with |- context [TmModel.do_writes cw T ?ws [] d] => destruct (W ws d) as [d' W']; rewrite W' end; cbn [TmModel.inAlt TmModel.inRaw TmModel.orig]; auto.
  - unfold TmModel.style_code. destruct (s =? 0) eqn:S0; [|destruct (s =? 1) eqn:S1; [|destruct (s =? 2) eqn:S2]]; cbn [option_map];
    try match goal with |- context [TmModel.do_writes cw T ?ws [] d] => destruct (W ws d) as [d' W']; rewrite W' end; cbn [TmModel.inAlt TmModel.inRaw TmModel.orig]; repeat split; auto; lia.
  - destruct x; cbn; auto.
  - destruct x; cbn; auto.
  - destruct y; [cbn; auto|]. cbn. repeat split; auto. discriminate.
  - destruct y; cbn [negb]; [|cbn; auto]. destruct g; [|exfalso; apply O; reflexivity]. cbn. repeat split; auto; discriminate.
Qed.
Lemma real_calls cs : forall a d, orderly a -> let '(_, o, a', d') := TmModel.do_calls cw T mkraw cs [] a d in
  o = [] /\ orderly a' /\
  TmModel.inAlt T a' = fold_left (fun b c => match c with Dev TmModel.EnterAltScreen => true | Dev TmModel.ExitAltScreen => false | _ => b end) (map Dev cs) (TmModel.inAlt T a) /\
  TmModel.inRaw T a' = fold_left (fun b c => match c with Dev TmModel.EnterRawMode => true | Dev TmModel.ExitRawMode => false | _ => b end) (map Dev cs) (TmModel.inRaw T a).
Proof using.
  induction cs as [|c cs IH]; intros a d O; [cbn; auto|]. cbn [TmModel.do_calls map fold_left]. pose proof (real_call c a d O) as R.
  destruct (TmModel.do_call cw T mkraw c [] a d) as [[[ok o] a1] d1]. destruct R as (-> & O1 & A1 & R1 & _). specialize (IH a1 d1 O1).
  destruct (TmModel.do_calls cw T mkraw cs [] a1 d1) as [[[oks o'] a2] d2]. destruct IH as (-> & O2 & A2 & R2). split; [reflexivity|]. split; [exact O2|]. rewrite A2, R2, A1, R1. auto.
Qed.
Lemma devs_flags h : alt_on h = alt_on (map Dev (devs h)) /\ raw_on h = raw_on (map Dev (devs h)).
Proof using.
  clear cw T mkraw. induction h as [|c h IH] using rev_ind; [auto|]. unfold devs in *. rewrite flat_map_app, map_app, alt_snoc, raw_snoc. destruct IH as [A R].
  destruct c as [d| | | | | | | | | | |m|]; cbn [flat_map map app]; rewrite ?app_nil_r; auto. rewrite alt_snoc, raw_snoc. destruct d; auto.
Qed.

(** Put next to a real ANSI terminal whose system calls succeed and which receives the same calls
    in the same order, the mock fails exactly when the real one fails and its two mode queries
    answer alike.  Styles are the documented ones. *)
Theorem C230_as_the_real_terminal : forall quote ps sched d0, let evs := snd (exec quote sched (start ps)) in
  forall k i c r, nth_error evs k = Some (i, c, r) ->
  let '(_, o, a, d) := TmModel.do_calls cw T mkraw (devs (map call_of (firstn k evs))) [] (TmModel.newANSI T) d0 in
  match c with
  | Dev (TmModel.SetCursorStyle s) => 0 <= s <= 2 -> r = Ok /\ fst (fst (fst (TmModel.do_call cw T mkraw (TmModel.SetCursorStyle s) o a d))) = true
  | Dev c => r = if fst (fst (fst (TmModel.do_call cw T mkraw c o a d))) then Ok else Err
  | IsInAltScreen => r = Bool (TmModel.IsInAltScreen a)
  | IsInRawMode => r = Bool (TmModel.IsInRawMode a)
  | _ => True
  end.
Proof using.
  intros quote ps sched d0 evs k i c r H. pose proof (C228_answers quote ps sched k i c r H) as D. fold evs in D.
  set (h := map call_of (firstn k evs)) in *. clearbody h. clear H evs. pose proof (real_calls (devs h) (TmModel.newANSI T) d0 ltac:(intros X; discriminate X)) as R.
  destruct (TmModel.do_calls cw T mkraw (devs h) [] (TmModel.newANSI T) d0) as [[[oks o] a] d]. destruct R as (-> & O & A & W).
  change (fold_left _ _ (TmModel.inAlt T (TmModel.newANSI T))) with (alt_on (map Dev (devs h))) in A. change (fold_left _ _ (TmModel.inRaw T (TmModel.newANSI T))) with (raw_on (map Dev (devs h))) in W.
  destruct (devs_flags h) as [DA DR]. rewrite <- DA in A. rewrite <- DR in W.
  destruct c as [c| | | | | | | | | | |m|]; try exact Logic.I.
  - pose proof (real_call c a d O) as K. rewrite A, W in K. destruct c; cbn [due] in D;
    try (destruct (TmModel.do_call cw T mkraw _ [] a d) as [[[ok o'] a'] d'] eqn:E; destruct K as (_ & _ & _ & _ & ->); cbn [fst]; rewrite D; clear;
         first [reflexivity | destruct (alt_on h); reflexivity | destruct (raw_on h); reflexivity]).
    intros V. split; [exact D|]. destruct (TmModel.do_call cw T mkraw _ [] a d) as [[[ok o'] a'] d'] eqn:E. destruct K as (_ & _ & _ & _ & ->). cbn [fst]. lia.
  - cbn [due] in D. unfold TmModel.IsInAltScreen. congruence.
  - cbn [due] in D. unfold TmModel.IsInRawMode. congruence.
Qed.
End Real.

(* ---------- C231: the doubles keep the promises of the interface (violated) ---------- *)

(** What they say about the terminal never changes, and the two agree. *)
Theorem C231_constant_partial : forall c, In c [GetCursorPosition; ReadScreenBuffer; Size; ColorDepth; SupportsDirectPositioning; SupportsReadback; SupportsTrueColor; Platform] ->
  forall quote ps sched k i r, nth_error (snd (exec quote sched (start ps))) k = Some (i, c, r) -> r = null_call c.
Proof.
  intros c C quote ps sched k i r H. pose proof (C228_answers quote ps sched k i c r H) as D. clear H. cbn [In] in C.
  repeat (destruct C as [<-|C]; [exact D|]). contradiction.
Qed.
(** SupportsTrueColor says yes and ColorDepth 256; SupportsReadback says no, and yet reading the
    cursor succeeds, with the position (0, 0) wherever the cursor was put. *)
Theorem C231_promises_broken_refuted : null_call SupportsTrueColor = Bool true /\ null_call ColorDepth = Num 256 /\
  null_call SupportsReadback = Bool false /\ null_call ReadScreenBuffer <> Err /\
  forall quote x y, map snd (snd (exec quote (repeat 0%nat 25) (start [[Dev (TmModel.SetCursorPosition x y); SupportsReadback; GetCursorPosition; SupportsTrueColor; ColorDepth]]))) =
    [Ok; Bool false; Pair 0 0; Bool true; Num 256].
Proof. do 3 (split; [reflexivity|]). split; [discriminate|]. intros quote x y. reflexivity. Qed.

(* ---------- C232: NullTerminal is a drop-in replacement (violated) ---------- *)

Theorem C232_never_fails_partial : forall c, null_call c <> Err.
Proof. intros c. destruct c; discriminate. Qed.
(** After EnterAltScreen succeeds the real terminal is in the alternate screen and refuses to
    enter again; NullTerminal answers false and accepts; likewise raw mode. *)
Theorem C232_modes_refuted : null_call (Dev TmModel.EnterAltScreen) = Ok /\ null_call IsInAltScreen = Bool false /\ null_call (Dev TmModel.ExitAltScreen) = Ok /\
  null_call (Dev TmModel.EnterRawMode) = Ok /\ null_call IsInRawMode = Bool false /\
  forall cw T mkraw (d : TmModel.dev T), fst (fst (fst (TmModel.do_call cw T mkraw TmModel.ExitAltScreen [] (TmModel.newANSI T) d))) = false /\
    let '(ok, o, a, d') := TmModel.do_call cw T mkraw TmModel.EnterAltScreen [] (TmModel.newANSI T) d in ok = true /\ TmModel.IsInAltScreen a = true.
Proof. do 5 (split; [reflexivity|]). intros cw T mkraw d. split; [reflexivity|]. cbn. auto. Qed.

Print Assumptions C228_answers. Print Assumptions C228_program_order. Print Assumptions C228_nothing_lost. Print Assumptions C228_no_deadlock.
Print Assumptions C228_completes. Print Assumptions C229_readable. Print Assumptions C229_count. Print Assumptions C229_texts_distinct.
Print Assumptions C229_numbers. Print Assumptions C230_as_the_real_terminal. Print Assumptions C231_constant_partial. Print Assumptions C231_promises_broken_refuted.
Print Assumptions C232_never_fails_partial. Print Assumptions C232_modes_refuted.
