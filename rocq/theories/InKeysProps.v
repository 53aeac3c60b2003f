(** More about the single-line text input: what every key and call does (C27, C28, C64, C134). *)
From Verif Require Import Prelude Utf8 InModel InSpec InProofs.

Definition key_of (x : itype) : ikey := IKey false 0 x.
(** Control plus a letter, as the terminal delivers it: a rune key with the control flag. *)
Definition ctrl_letter (c : Z) : ikey := IKey true c IRune.

(* ---------- C27 ---------- *)
(** The movement keys keep the content, drop the selection and go where they say. *)
Theorem C27_movement_keys : forall brk t, ivalid brk t -> focused t = true ->
  let n := length (graphemes brk (content t)) in
  let goes k c := let t' := update brk t k in
    content t' = content t /\ cursor t' = c /\ sel t' = None /\ focused t' = true /\ iwidth t' = iwidth t in
  goes (key_of ILeft) (pred (cursor t)) /\ goes (key_of IRight) (Nat.min (S (cursor t)) n) /\
  goes (key_of IHome) 0%nat /\ goes (key_of IEnd) n /\
  goes (ctrl_letter 101) n /\ goes (ctrl_letter 69) n.
Proof.
  intros brk t V F n goes. destruct V as [V _ _]. unfold goes, update. rewrite F.
  split; [|split; [|repeat split; auto]].
  - cbn [bind ik_ctrl key_of by_type ik_t move_left_ put content cursor sel focused iwidth]. repeat split; auto.
    unfold left_pos, gcount. fold n. destruct (cursor t) as [|c]; auto. fold n in V.
    replace (c <? n)%nat with true by (symmetry; apply Nat.ltb_lt; lia). reflexivity.
  - cbn [bind ik_ctrl key_of by_type ik_t move_right_ put content cursor sel focused iwidth]. repeat split; auto.
    unfold right_pos, gcount. fold n. destruct (n <=? cursor t)%nat eqn:E; [apply Nat.leb_le in E|apply Nat.leb_gt in E]; lia.
Qed.
(** Ctrl-A selects everything, Ctrl-U empties the input. *)
Theorem C27_select_all_and_clear : forall brk t c, focused t = true ->
  (c = 97 \/ c = 65 -> let t' := update brk t (ctrl_letter c) in
     content t' = content t /\ sel t' = Some (0%nat, length (graphemes brk (content t))) /\ cursor t' = length (graphemes brk (content t))) /\
  (c = 117 \/ c = 85 -> let t' := update brk t (ctrl_letter c) in content t' = [] /\ sel t' = None /\ cursor t' = 0%nat).
Proof. intros brk t c F. unfold update. rewrite F. split; intros [ -> | -> ]; repeat split. Qed.
(** Keys the input does not handle change nothing. *)
Theorem C27_other_keys_ignored : forall brk t r, update brk t (IKey false r IOther) = t.
Proof. intros brk t r. unfold update. now destruct (focused t). Qed.
(** The positioning calls: the nearest valid position is taken. *)
Theorem C27_calls : forall brk t, let n := Z.of_nat (length (graphemes brk (content t))) in
  (forall s p, let t' := iapply brk (ISetContent s p) t in
     content t' = s /\ sel t' = None /\ Z.of_nat (cursor t') = Z.max 0 (Z.min p (Z.of_nat (length (graphemes brk s))))) /\
  (forall s, let t' := iapply brk (IContent s) t in
     content t' = s /\ Z.of_nat (cursor t') = Z.min (Z.of_nat (cursor t)) (Z.of_nat (length (graphemes brk s)))) /\
  (forall p, let t' := iapply brk (ICursor p) t in content t' = content t /\ sel t' = sel t /\ Z.of_nat (cursor t') = Z.max 0 (Z.min p n)) /\
  (forall a b, let t' := iapply brk (ISelect a b) t in
     content t' = content t /\ exists x y, sel t' = Some (x, y) /\ cursor t' = y /\
       Z.of_nat x = Z.min n (Z.max 0 (Z.min a b)) /\ Z.of_nat y = Z.min n (Z.max 0 (Z.max a b))) /\
  (let t' := iapply brk IClearSel t in content t' = content t /\ cursor t' = cursor t /\ sel t' = None) /\
  (forall b, let t' := iapply brk (IFocus b) t in content t' = content t /\ cursor t' = cursor t /\ sel t' = sel t /\ focused t' = b) /\
  (forall w, let t' := iapply brk (IWidth w) t in content t' = content t /\ cursor t' = cursor t /\ sel t' = sel t /\ iwidth t' = Z.max 1 w).
Proof.
  intros brk t n. unfold n, iapply, set_content, with_content, with_cursor_at, with_selection, clear_selection, move_to, clampZ, gcount, clamp_sel, new_sel, put.
  cbn [content cursor sel focused iwidth fst snd]. split; [|split; [|split; [|split; [|split; [|split]]]]].
  - intros s p. repeat split; auto. lia.
  - intros s. split; auto. lia.
  - intros p. repeat split; auto. lia.
  - intros a b. split; auto. destruct (Z.to_nat b <? Z.to_nat a)%nat eqn:E; [apply Nat.ltb_lt in E|apply Nat.ltb_ge in E]; cbn [fst snd];
      eexists _, _; (split; [reflexivity|]; split; [reflexivity|]; lia).
  - auto.
  - auto.
  - intros w. repeat split; auto. destruct (w <? 1) eqn:E; lia.
Qed.
(** Changing the content keeps what is left of the selection. *)
Theorem C27_content_keeps_selection : forall brk t s a b, sel t = Some (a, b) ->
  let n := length (graphemes brk s) in
  sel (iapply brk (IContent s) t) = if (Nat.min a n =? Nat.min b n)%nat then None else Some (Nat.min a n, Nat.min b n).
Proof. intros brk t s a b E n. unfold iapply, with_content, put, sel_empty, clamp_sel. cbn [sel]. rewrite E. cbn [fst snd]. reflexivity. Qed.
Example C27_keys_ex : let t := iapply_all accents [IFocus true; ISetContent [97; 101; 769; 98] 2; IKeyOp (key_of ILeft)] (new_inp 10) in
  cursor t = 1%nat /\ cursor (update accents t (key_of IEnd)) = 3%nat /\ content (update accents t (ctrl_letter 85)) = [] /\
  sel (iapply accents (ISelect 9 1) t) = Some (1%nat, 3%nat).
Proof. repeat split; reflexivity. Qed.

(* ---------- C28 ---------- *)
(** Backspace and Delete with a selection remove exactly the selected clusters. *)
Theorem C28_deleting_a_selection : forall brk t a b k, ivalid brk t -> focused t = true -> sel t = Some (a, b) -> a <> b ->
  k = IBackspace \/ k = IDelete ->
  let g := graphemes brk (content t) in let t' := update brk t (key_of k) in
  content t' = concat (firstn a g ++ skipn b g) /\ cursor t' = a /\ sel t' = None.
Proof.
  intros brk t a b k V F E N Hk g t'. subst t'. unfold update. rewrite F.
  assert (H : has_sel t = true) by (unfold has_sel, sel_empty; rewrite E; cbn; apply negb_true_iff, Nat.eqb_neq; auto).
  pose proof (delete_sel_eq brk t a b E N V) as D.
  assert (X : bind brk t (key_of k) = delete_selection brk t).
  { destruct Hk as [ -> | -> ]; unfold bind, by_type, delete_backward, delete_forward_; cbn [ik_ctrl ik_t key_of]; rewrite H; reflexivity. }
  rewrite X, D, concat_app. repeat split.
Qed.
(** The space key types a space. *)
Theorem C28_space_key : forall brk t, update brk t (key_of ISpace) = update brk t (IKey false 32 IRune).
Proof. reflexivity. Qed.

(* ---------- C64 ---------- *)
Theorem C64_not_empty : forall s, not_empty s = None <-> s <> [].
Proof. intros [|c s]; cbn; split; intros; congruence. Qed.
(** Every violation is reported with its own error. *)
Theorem C64_errors : forall n a b s,
  (min_length n s <> None -> min_length n s = Some ETooShort) /\ (max_length n s <> None -> max_length n s = Some ETooLong) /\
  (range_ a b s <> None -> range_ a b s = if Z.of_nat (length (enc s)) <? a then Some ETooShort else Some ETooLong) /\
  (not_empty s <> None -> not_empty s = Some EEmpty).
Proof.
  intros n a b s. unfold min_length, max_length, range_, bytes. repeat split; intros H.
  - destruct (_ <? n); congruence.
  - destruct (n <? _); congruence.
  - destruct (_ <? a); auto. destruct (b <? _); congruence.
  - destruct s; cbn in *; congruence.
Qed.

(* ---------- C134 ---------- *)
(** Full statement: a control combination never types text. True for the bound letters (above)
    and for every non-character key; *)
Theorem C299_control_keys_type_nothing : forall brk t r k, In k [ILeft; IRight; IHome; IEnd; IOther] ->
  upper_eq 117 r = false -> content (update brk t (IKey true r k)) = content t.
Proof.
  intros brk t r k Hk Hu. unfold update. destruct (focused t); [|reflexivity]. unfold bind. cbn [ik_ctrl ik_rune]. rewrite Hu.
  destruct (upper_eq 97 r); [reflexivity|]. destruct (upper_eq 101 r); [reflexivity|].
  cbn [In] in Hk. repeat destruct Hk as [<-|Hk]; try reflexivity. destruct Hk.
Qed.
(** false for every other letter: it is inserted as if Ctrl were not pressed. *)
Theorem C134_control_letter_is_typed_refuted : forall brk t c, ivalid brk t -> focused t = true -> has_sel t = false ->
  97 <= c <= 122 -> ~ In c [97; 101; 117] ->
  content (update brk t (ctrl_letter c)) = ibefore brk t ++ [c] ++ iafter brk t.
Proof.
  intros brk t c V F H R N. unfold update. rewrite F. unfold bind, upper_eq. cbn [ik_ctrl ik_rune ctrl_letter].
  cbn [In] in N. replace ((c =? 97) || (c =? 97 - 32)) with false by lia.
  replace ((c =? 117) || (c =? 117 - 32)) with false by lia. replace ((c =? 101) || (c =? 101 - 32)) with false by lia.
  apply (insert_eq brk t c V H).
Qed.
Example C134_ex : content (update every (iapply_all every [IFocus true; ISetContent [97] 1] (new_inp 10)) (ctrl_letter 107)) = [97; 107].
Proof. reflexivity. Qed.

Print Assumptions C27_movement_keys. Print Assumptions C27_select_all_and_clear. Print Assumptions C27_other_keys_ignored. Print Assumptions C27_calls.
Print Assumptions C27_content_keeps_selection. Print Assumptions C28_deleting_a_selection. Print Assumptions C28_space_key. Print Assumptions C64_not_empty.
Print Assumptions C64_errors. Print Assumptions C299_control_keys_type_nothing. Print Assumptions C134_control_letter_is_typed_refuted.
