(** C37, C173 to C176: what a form reports and draws. *)
From Verif Require Import Prelude Utf8 KeysModel FmModel FmProps.
Import String.StringSyntax.

Section Props.
Context {Mdl Msg : Type}.
Variable iface : Mdl -> iface_kind.
Variable upd : Mdl -> Msg -> option Mdl.
Variable key_msg : keymsg -> Msg.
Notation step := (fstep iface upd key_msg).
Notation steps := (fsteps iface upd key_msg).

(** Tab and Shift-Tab mark the field they leave as touched and change nothing else but the focus. *)
Theorem C37_leaving_touches : forall (f : form Mdl) k i x, faction_of k = FNext \/ faction_of k = FPrev -> nth_error (fields f) i = Some x ->
  exists y, nth_error (fields (step f (FKey k))) i = Some y /\ fname y = fname x /\ mdl y = mdl x /\ vals y = vals x /\ dirty y = dirty x /\ errs y = errs x /\
    touched y = (touched x || (Z.of_nat i =? focused f)) /\ length (fields (step f (FKey k))) = length (fields f).
Proof using.
  intros f k i x A E. assert (N : nfields f =? 0 = false) by (unfold nfields; destruct (fields f); [destruct i; discriminate|cbn [length]; lia]).
  assert (G : fields (step f (FKey k)) = upd_at (fields f) (focused f) mark_touched).
  { cbn [fstep]. unfold handle_key. destruct A as [A|A]; rewrite A; cbn [fst]; unfold focus_next, focus_prev; rewrite N; reflexivity. }
  rewrite G, upd_at_nth, E, upd_at_length. eexists. split; [reflexivity|]. destruct (Z.of_nat i =? focused f); cbn; repeat split; auto. now rewrite orb_true_r. now rewrite orb_false_r.
Qed.
(** Adding a field appends it, unfocused (unless it is the first), untouched, without errors, and keeps the others. *)
Theorem C37_adding_a_field : forall ops n m vs, let f := steps ops (@new_form Mdl) in let f' := step f (FAdd n m vs) in
  focused f' = focused f /\ submitted f' = submitted f /\
  exists y, fields f' = fields f ++ [y] /\ fname y = n /\ mdl y = m /\ vals y = vs /\ touched y = false /\ dirty y = false /\ errs y = [].
Proof using.
  intros ops n m vs f f'. assert (K : form_ok f).
  { unfold f. assert (G : forall ops g, form_ok g -> form_ok (steps ops g)).
    { clear. induction ops as [|o ops IH]; intros g Kg; [exact Kg|]. apply IH, step_ok, Kg. }
    apply G. split; cbn; [lia|right; auto]. }
  unfold f'. cbn [fstep]. unfold add_field. cbn [focused submitted fields]. split; [|split; [reflexivity|exists (new_field n m vs); repeat split]].
  rewrite app_length. cbn [length]. destruct K as [K1 [K2|[K2 K3]]]; unfold nfields in *; [|rewrite K2 in *; cbn [length] in *]; destruct (_ <=? _) eqn:E; lia.
Qed.
(** A field's component, and its dirty mark, change only by a message or unbound key while it is focused. *)
Theorem C37_messages_reach_focused_field_only : forall (f : form Mdl) m, form_ok f ->
  let f' := step f (FMsg m) in focused f' = focused f /\ submitted f' = submitted f /\
  forall i x, nth_error (fields f) i = Some x -> exists y, nth_error (fields f') i = Some y /\ fname y = fname x /\ vals y = vals x /\ errs y = errs x /\ touched y = touched x /\
    (mdl y, dirty y) = (if Z.of_nat i =? focused f then match upd (mdl x) m with Some m' => (m', true) | None => (mdl x, dirty x) end else (mdl x, dirty x)).
Proof using.
  intros f m K f'. unfold f'. cbn [fstep]. unfold delegate. destruct (nth_error (fields f) (Z.to_nat (focused f))) as [z|] eqn:F.
  2:{ cbn [fst]. split; [reflexivity|]. split; [reflexivity|]. intros i x E. exists x. repeat split; auto. destruct (Z.eqb_spec (Z.of_nat i) (focused f)) as [Q|Q]; auto.
      rewrite <- Q, Nat2Z.id in F. congruence. }
  assert (B : (focused f <? 0) || (nfields f <=? focused f) = false).
  { destruct K as [K1 K2]. assert (nth_error (fields f) (Z.to_nat (focused f)) <> None) by (rewrite F; discriminate). apply nth_error_Some in H. unfold nfields. lia. }
  destruct (upd (mdl z) m) as [m'|] eqn:U; cbn [fst].
  - unfold update_field. rewrite B. cbn [focused submitted fields]. split; [reflexivity|]. split; [reflexivity|]. intros i x E. rewrite upd_at_nth, E. eexists. split; [reflexivity|].
    destruct (Z.eqb_spec (Z.of_nat i) (focused f)) as [Q|Q]; cbn; repeat split; auto. rewrite <- Q, Nat2Z.id in F. assert (z = x) by (congruence). subst z. now rewrite U.
  - split; [reflexivity|]. split; [reflexivity|]. intros i x E. exists x. repeat split; auto. destruct (Z.eqb_spec (Z.of_nat i) (focused f)) as [Q|Q]; auto.
    rewrite <- Q, Nat2Z.id in F. assert (z = x) by (congruence). subst z. now rewrite U.
Qed.
(** Unbound keys are delivered as messages; Escape and Ctrl-C quit, and nothing else does. *)
Theorem C37_other_keys : forall (f : form Mdl) k,
  (faction_of k = FNone -> step f (FKey k) = step f (FMsg (key_msg k))) /\
  (snd (handle_key iface upd key_msg f k) = FcQuit <-> ktype k = KEsc \/ ktype k = KCtrlC) /\
  (ktype k = KEsc \/ ktype k = KCtrlC -> step f (FKey k) = f) /\
  (faction_of k = FNone <-> ~ In (ktype k) [KTab; KEnter; KEsc; KCtrlC]).
Proof using.
  intros f k. split; [|split; [|split]].
  - intros A. cbn [fstep]. unfold handle_key. rewrite A. reflexivity.
  - unfold handle_key, faction_of. split.
    + destruct (ktype k); try (intros _; auto; fail); try (unfold delegate; destruct (nth_error _ _) as [z|]; [destruct (upd (mdl z) _)|]; discriminate); try (destruct (kshift k); discriminate).
      cbv zeta. destruct (is_valid _); discriminate.
    + intros [A|A]; rewrite A; reflexivity.
  - intros A. cbn [fstep]. unfold handle_key, faction_of. destruct A as [A|A]; rewrite A; reflexivity.
  - unfold faction_of. split.
    + intros A I. cbn in I. destruct I as [I|[I|[I|[I|[]]]]]; rewrite <- I in A; [destruct (kshift k)| | |]; discriminate.
    + intros N. destruct (ktype k); auto; exfalso; apply N; cbn; auto.
Qed.
(** Values and errors by name, for fields with distinct names: the field's component and its complaints; nothing for other names. *)
Lemma named_not_in {B} (g : field Mdl -> B -> B) (fs : list (field Mdl)) n a : ~ In n (map fname fs) -> fold_left (fun acc x => if list_eqb (fname x) n then g x acc else acc) fs a = a.
Proof using. clear. revert a. induction fs as [|x fs IH]; intros a N; [reflexivity|]. cbn [fold_left]. cbn [map In] in N. destruct (list_eqb (fname x) n) eqn:E; [apply list_eqb_eq in E; tauto|]. apply IH. tauto. Qed.
Lemma named_in {B} (g : field Mdl -> B -> B) (fs : list (field Mdl)) x a : NoDup (map fname fs) -> In x fs -> fold_left (fun acc y => if list_eqb (fname y) (fname x) then g y acc else acc) fs a = g x a.
Proof using.
  clear. revert a. induction fs as [|y fs IH]; intros a N I; [destruct I|]. inversion N as [|? ? N1 N2]; subst. cbn [fold_left]. destruct I as [->|I].
  - rewrite (proj2 (list_eqb_eq _ _) eq_refl). now apply named_not_in.
  - destruct (list_eqb (fname y) (fname x)) eqn:E; [apply list_eqb_eq in E; exfalso; apply N1; rewrite E; now apply in_map|]. now apply IH.
Qed.
Theorem C37_values_and_errors_by_name : forall f : form Mdl, NoDup (map fname (fields f)) ->
  (forall x, In x (fields f) -> model_named (fields f) (fname x) = Some (mdl x) /\ errors_named (fields f) (fname x) = errs x) /\
  (forall n, ~ In n (map fname (fields f)) -> model_named (fields f) n = None /\ errors_named (fields f) n = []).
Proof using.
  intros f N. split.
  - intros x I. unfold model_named, errors_named. rewrite (named_in (fun x _ => Some (mdl x))) by auto. rewrite (named_in (fun x acc => match errs x with [] => acc | e => e end)) by auto.
    split; auto. destruct (errs x); reflexivity.
  - intros n I. unfold model_named, errors_named. rewrite (named_not_in (fun x _ => Some (mdl x))) by auto. rewrite (named_not_in (fun x acc => match errs x with [] => acc | e => e end)) by auto. auto.
Qed.
(** A form is dirty exactly if some message changed some field, and never becomes clean again. *)
Theorem C37_dirty : forall (f : form Mdl) o, form_ok f -> is_dirty (step f o) = is_dirty f ||
  match o with
  | FMsg m => match nth_error (fields f) (Z.to_nat (focused f)) with Some x => match upd (mdl x) m with Some _ => true | None => false end | None => false end
  | FKey k => match faction_of k, nth_error (fields f) (Z.to_nat (focused f)) with FNone, Some x => match upd (mdl x) (key_msg k) with Some _ => true | None => false end | _, _ => false end
  | FAdd _ _ _ => false
  end.
Proof using.
  assert (U : forall (l : list (field Mdl)) i g, (forall x, dirty (g x) = dirty x) -> existsb dirty (upd_at l i g) = existsb dirty l).
  { intros l i g Hg. unfold upd_at. generalize 0%nat. induction l as [|x l IH]; intros s; [reflexivity|]. cbn [length seq combine map existsb]. rewrite IH. cbn [fst snd]. destruct (_ =? i); rewrite ?Hg; reflexivity. }
  assert (V : forall (l : list (field Mdl)) i g n, nth_error l n <> None -> i = Z.of_nat n -> (forall x, dirty (g x) = true) -> existsb dirty (upd_at l i g) = true).
  { intros l i g n H -> Hg. apply existsb_exists. destruct (nth_error l n) as [x|] eqn:E; [|congruence]. exists (g x). split; auto. apply (nth_error_In _ n). rewrite upd_at_nth, E, Z.eqb_refl. reflexivity. }
  assert (D : forall (f : form Mdl) m, form_ok f -> is_dirty (fst (delegate upd f m)) = is_dirty f || match nth_error (fields f) (Z.to_nat (focused f)) with Some x => match upd (mdl x) m with Some _ => true | None => false end | None => false end).
  { intros f m K. unfold delegate. destruct (nth_error (fields f) (Z.to_nat (focused f))) as [x|] eqn:E; [|now rewrite orb_false_r]. destruct (upd (mdl x) m) as [m'|]; [|now rewrite orb_false_r].
    rewrite orb_true_r. cbn [fst]. unfold update_field. assert (B : (Z.to_nat (focused f) < length (fields f))%nat) by (apply nth_error_Some; rewrite E; discriminate).
    destruct K as [K1 K2]. unfold nfields. replace (_ || _) with false by lia. unfold is_dirty. cbn [fields]. apply (V _ _ _ (Z.to_nat (focused f))); [rewrite E; discriminate|lia|reflexivity]. }
  intros f o K. destruct o as [k|m|n m vs]; cbn [fstep].
  - unfold handle_key. destruct (faction_of k) eqn:A; cbn [fst]; try rewrite orb_false_r.
    + unfold focus_next. destruct (_ =? 0); auto. unfold is_dirty. cbn [fields]. apply U. reflexivity.
    + unfold focus_prev. destruct (_ =? 0); auto. unfold is_dirty. cbn [fields]. apply U. reflexivity.
    + cbv zeta. assert (W : forall fs l, existsb dirty (map (validate_field iface fs) l) = existsb dirty l).
      { intros fs l. induction l as [|x l IH]; [reflexivity|]. cbn [map existsb]. rewrite IH. f_equal. unfold validate_field. destruct (lookup _ _ _); reflexivity. }
      destruct (is_valid _); cbn [fst]; apply W.
    + reflexivity.
    + apply D, K.
  - apply D, K.
  - rewrite orb_false_r. unfold is_dirty, add_field. cbn [fields]. rewrite existsb_app. cbn. now rewrite orb_false_r.
Qed.

(* ---------- C173: the view ---------- *)
(** One entry per field, in order, with its component; exactly the focused one carries the focus mark; complaints are shown
    whenever there are some, and "Valid" only for a field that was left and has none. *)
Theorem C173_view : forall ops, let f := steps ops (@new_form Mdl) in
  length (form_view f) = length (fields f) /\
  (forall i x, nth_error (fields f) i = Some x -> exists b st, nth_error (form_view f) i = Some (fname x, b, mdl x, st) /\ (b = true <-> Z.of_nat i = focused f) /\
     st = match errs x with [] => if touched x then SValid else SNothing | e => SErrors e end) /\
  (fields f <> [] -> exists n m st, In (n, true, m, st) (form_view f)).
Proof using.
  intros ops f. assert (P : forall i x, nth_error (fields f) i = Some x -> exists b st, nth_error (form_view f) i = Some (fname x, b, mdl x, st) /\ (b = true <-> Z.of_nat i = focused f) /\
     st = match errs x with [] => if touched x then SValid else SNothing | e => SErrors e end).
  { intros i x E. exists (Z.of_nat i =? focused f), (field_status x). split; [|split; [lia|unfold field_status, field_valid; destruct (errs x); [destruct (touched x); reflexivity|reflexivity]]].
    unfold form_view. assert (G : forall (l : list (field Mdl)) s j y, nth_error l j = Some y -> nth_error (combine (seq s (length l)) l) j = Some ((s + j)%nat, y)).
    { clear. induction l as [|z l IH]; intros s j y H; [destruct j; discriminate|]. destruct j; cbn in *; [rewrite Nat.add_0_r; congruence|]. rewrite (IH (S s) j y H). f_equal. f_equal. lia. }
    rewrite nth_error_map, (G _ 0%nat i x E). reflexivity. }
  split; [unfold form_view; rewrite map_length, combine_length, seq_length; lia|]. split; [exact P|].
  intros Ne. destruct (C37_focus_on_existing_field iface upd key_msg ops) as [[Q _]|(x & E & B)]; [contradiction|]. destruct (P _ _ E) as (b & st & En & Eb & _).
  fold f in E, B, En. exists (fname x), (mdl x), st. replace true with b; [eapply nth_error_In; eauto|]. apply Eb. apply Z2Nat.id, B.
Qed.
(** Right after Enter (fields with distinct names and values), what is drawn is the outcome of the validation. *)
Theorem C275_marks_true_after_enter : forall f : form Mdl, NoDup (map fname (fields f)) -> (forall x, In x (fields f) -> value_of iface x <> None) ->
  let f' := step f (FKey (plain KEnter)) in
  forall n b m st, In (n, b, m, st) (form_view f') -> exists x, In x (fields f) /\ fname x = n /\ mdl x = m /\
    (st = SValid \/ st = SNothing -> accepts iface x) /\ (forall e, st = SErrors e -> exists v, value_of iface x = Some v /\ e = run_validators (vals x) v).
Proof using.
  intros f N V f' n b m st I. unfold form_view in I. apply in_map_iff in I as ([i y] & Ey & Iy). apply in_combine_r in Iy as Iy2. cbn [fst snd] in Ey.
  assert (E1 : fields f' = map (validate_field iface (fields f)) (fields f)).
  { unfold f'. cbn [fstep]. unfold handle_key. cbn [faction_of ktype plain]. cbv zeta. destruct (is_valid _); reflexivity. }
  rewrite E1 in Iy2. apply in_map_iff in Iy2 as (x & Ex & Ix). exists x. destruct (value_of iface x) as [v|] eqn:Ev; [|destruct (V x Ix Ev)].
  pose proof (validate_valid iface (fields f) x v N Ix Ev) as Er. rewrite Ex in Er.
  assert (F : fname y = fname x /\ mdl y = mdl x /\ touched y = touched x) by (rewrite <- Ex; unfold validate_field; destruct (lookup _ _ _); auto). destruct F as (F1 & F2 & F3).
  apply pair_equal_spec in Ey as [Ey Es]. apply pair_equal_spec in Ey as [Ey Em]. apply pair_equal_spec in Ey as [En _]. split; auto. split; [congruence|]. split; [congruence|].
  subst st. unfold field_status. rewrite Er. split.
  - intros H v' Ev' g Ig. rewrite Ev in Ev'. apply some_inj in Ev'. subst v'. destruct (run_validators (vals x) v) as [|e0 es] eqn:R; [|destruct H; discriminate].
    unfold run_validators in R. destruct (g v) as [e|] eqn:G; auto. exfalso. assert (Q : In e (flat_map (fun g : validator => match g v with Some e => [e] | None => [] end) (vals x))) by (apply in_flat_map; exists g; rewrite G; cbn; auto).
    rewrite R in Q. destruct Q.
  - intros e H. exists v. split; auto. destruct (run_validators (vals x) v) eqn:R; [destruct (_ && _); discriminate|]. injection H as H. congruence.
Qed.
End Props.

(** Unicode's white space. *)
Definition white (r : Z) : Prop := 9 <= r <= 13 \/ 8192 <= r <= 8202 \/ In r [32; 133; 160; 5760; 8232; 8233; 8239; 8287; 12288].
(** Required accepts exactly texts with a character that is not white space, and everything but nil and blank text; otherwise it says "required". *)
Theorem C79_required : forall v, (required v = None <-> match v with VNil => False | VStr s => exists r, In r (runes_of s) /\ ~ white r | VOther _ => True end) /\
  (required v = None \/ required v = Some (ascii "required")).
Proof.
  assert (Wh : forall r, is_space r = true <-> white r).
  { intros r. unfold is_space, white. cbn [In]. lia. }
  intros [|s|n]; cbn [required]; [split; [split; [discriminate|tauto]|right; reflexivity]| |split; [tauto|auto]]. split; [|destruct (blank s); auto]. unfold blank. induction (runes_of s) as [|r l IH]; cbn [forallb]; [split; [discriminate|intros (r & [] & _)]|].
  destruct (is_space r) eqn:E; cbn [andb].
  - rewrite IH. split; intros (r' & I & N); exists r'; (split; [|exact N]); [right; exact I|]. destruct I as [<-|I]; [|exact I]. apply Wh in E. tauto.
  - split; [intros _|reflexivity]. exists r. split; [left; reflexivity|]. intros Q. apply Wh in Q. congruence.
Qed.
(** Length validators reject anything that is not text; what they say names the limit. *)
Theorem C79_lengths_need_text : forall n v, (forall s, v <> VStr s) -> min_length n v = Some (ascii "invalid type (expected string)") /\ max_length n v = Some (ascii "invalid type (expected string)").
Proof. intros n [|s|k] H; auto. destruct (H s eq_refl). Qed.
Theorem C79_length_messages : forall n s, 0 <= n -> (min_length n (VStr s) = None \/ min_length n (VStr s) = Some (ascii "must be at least " ++ dec n ++ ascii " characters")) /\
  (max_length n (VStr s) = None \/ max_length n (VStr s) = Some (ascii "must be at most " ++ dec n ++ ascii " characters")).
Proof. intros n s Hn. unfold min_length, max_length, e_short, e_long, sdec. replace (n <? 0) with false by lia. split; destruct (_ <? _); auto. Qed.
(** A field that was merely left is drawn "Valid" although its validator rejects its value, and old complaints stay after a correction. *)
Theorem C174_never_validated_shown_valid_refuted : exists ops x, let f := fx ops in
  nth_error (fields f) 0 = Some x /\ nth_error (form_view f) 0 = Some (fname x, false, mdl x, SValid) /\ ~ accepts ci x.
Proof.
  exists (two ++ [FKey (plain KTab)]). eexists. cbv zeta. split; [reflexivity|]. split; [reflexivity|]. intros H. specialize (H (VStr []) eq_refl required (or_introl eq_refl)). discriminate.
Qed.
Theorem C174_stale_errors_refuted : exists ops x e, let f := fx ops in
  nth_error (fields f) 0 = Some x /\ nth_error (form_view f) 0 = Some (fname x, true, mdl x, SErrors e) /\ accepts ci x.
Proof.
  exists (two ++ [FKey (plain KEnter); FKey (rune_key 97); FKey (rune_key 98)]). do 2 eexists. cbv zeta. split; [reflexivity|]. split; [reflexivity|].
  intros v E g I. cbn in E. apply some_inj in E. subst v. cbn in I. destruct I as [<-|[<-|[]]]; reflexivity.
Qed.
(** IsValid (documented "whether all fields pass validation") is true of a form with a rejected value. *)
Theorem C175_isvalid_before_validation_refuted : exists x, is_valid (fx two) = true /\ nth_error (fields (fx two)) 0 = Some x /\ ~ accepts ci x.
Proof. eexists. split; [reflexivity|]. split; [reflexivity|]. intros H. specialize (H (VStr []) eq_refl required (or_introl eq_refl)). discriminate. Qed.
(** It is right immediately after Enter. *)
Theorem C275_isvalid_after_enter : forall (Mdl Msg : Type) iface (upd : Mdl -> Msg -> option Mdl) key_msg (f : form Mdl), NoDup (map fname (fields f)) -> (forall x, In x (fields f) -> value_of iface x <> None) ->
  is_valid (fstep iface upd key_msg f (FKey (plain KEnter))) = true <-> forall x, In x (fields f) -> accepts iface x.
Proof.
  intros Mdl Msg iface upd key_msg f N V. destruct (C37_submit_iff_valid iface upd key_msg f N V) as (S & _). rewrite <- S. clear S.
  unfold fstep, handle_key. cbn [faction_of ktype plain]. cbv zeta. destruct (is_valid (validate_all iface f)) eqn:E; cbn [fst snd]; split; auto; try discriminate.
  congruence.
Qed.
(** No key resets a form: the focus never returns to the first field and the marks never clear, except by Tab. *)
Theorem C176_no_key_resets_refuted : forall (Mdl Msg : Type) iface (upd : Mdl -> Msg -> option Mdl) key_msg (f : form Mdl) k i x, form_ok f -> nth_error (fields f) i = Some x ->
  exists y, nth_error (fields (fstep iface upd key_msg f (FKey k))) i = Some y /\ (touched x = true -> touched y = true) /\ (dirty x = true -> dirty y = true).
Proof.
  intros Mdl Msg iface upd key_msg f k i x K E.
  destruct (faction_of k) eqn:A.
  - destruct (C37_leaving_touches iface upd key_msg f k i x (or_introl A) E) as (y & Ey & _ & _ & _ & Ed & _ & Et & _). exists y. rewrite Et, Ed. split; [exact Ey|]. split; auto. intros ->. reflexivity.
  - destruct (C37_leaving_touches iface upd key_msg f k i x (or_intror A) E) as (y & Ey & _ & _ & _ & Ed & _ & Et & _). exists y. rewrite Et, Ed. split; [exact Ey|]. split; auto. intros ->. reflexivity.
  - exists (validate_field iface (fields f) x). split; [|unfold validate_field; destruct (lookup _ _ _); auto].
    cbn [fstep]. unfold handle_key. rewrite A. cbv zeta. destruct (is_valid _); cbn [fst fields validate_all]; rewrite nth_error_map, E; reflexivity.
  - exists x. cbn [fstep]. unfold handle_key. rewrite A. auto.
  - destruct (C37_other_keys iface upd key_msg f k) as (Q & _). rewrite (Q A). destruct (C37_messages_reach_focused_field_only iface upd key_msg f (key_msg k) K) as (_ & _ & G).
    destruct (G i x E) as (y & Ey & _ & _ & _ & Et & Em). exists y. split; [exact Ey|]. split; [congruence|]. intros D. destruct (Z.of_nat i =? focused f); [destruct (upd _ _)|]; apply pair_equal_spec in Em as [_ Em]; congruence.
Qed.
Example C173_ex : form_view (fx (two ++ [FKey (plain KEnter); FKey (plain KTab)])) =
  [([110], false, Text [], SErrors [e_required; e_short 2]); ([109], true, Choice (Some (VOther 3)), SNothing)].
Proof. reflexivity. Qed.
Example C37_ex3 : is_dirty (fx two) = false /\ is_dirty (fx (two ++ [FKey (rune_key 97)])) = true /\ model_named (fields (fx (two ++ [FKey (rune_key 97)]))) [110] = Some (Text [97]).
Proof. repeat split; reflexivity. Qed.

Print Assumptions C37_leaving_touches. Print Assumptions C37_adding_a_field. Print Assumptions C37_messages_reach_focused_field_only. Print Assumptions C37_other_keys.
Print Assumptions C37_values_and_errors_by_name. Print Assumptions C37_dirty. Print Assumptions C173_view. Print Assumptions C275_marks_true_after_enter.
Print Assumptions C79_required. Print Assumptions C79_lengths_need_text. Print Assumptions C79_length_messages. Print Assumptions C174_never_validated_shown_valid_refuted.
Print Assumptions C174_stale_errors_refuted. Print Assumptions C175_isvalid_before_validation_refuted. Print Assumptions C275_isvalid_after_enter. Print Assumptions C176_no_key_resets_refuted.
