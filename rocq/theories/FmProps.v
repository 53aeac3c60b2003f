(** Theorems C37, C78 to C81 about forms. *)
From Verif Require Import Prelude Utf8 KeysModel FmModel.

(* ---------- lemmas ---------- *)
Section L.
Context {Mdl : Type}.
Lemma upd_at_length (l : list (field Mdl)) i g : length (upd_at l i g) = length l.
Proof. unfold upd_at. rewrite map_length, combine_length, seq_length. lia. Qed.
Lemma nth_combine_seq {B} (l : list B) n : nth_error (combine (seq 0 (length l)) l) n = match nth_error l n with Some x => Some (n, x) | None => None end.
Proof.
  enough (G : forall k, nth_error (combine (seq k (length l)) l) n = match nth_error l n with Some x => Some ((k + n)%nat, x) | None => None end) by apply (G 0%nat).
  revert n. induction l as [|x l IH]; intros [|n] k; cbn; auto; [now rewrite Nat.add_0_r|]. rewrite IH. destruct (nth_error l n); auto. now rewrite Nat.add_succ_comm.
Qed.
Lemma upd_at_nth (l : list (field Mdl)) i g n : nth_error (upd_at l i g) n =
  match nth_error l n with Some x => Some (if Z.of_nat n =? i then g x else x) | None => None end.
Proof. unfold upd_at. rewrite nth_error_map, nth_combine_seq. destruct (nth_error l n); reflexivity. Qed.
Lemma list_eqb_spec a b : list_eqb a b = true <-> a = b.
Proof.
  revert b. induction a as [|x a IH]; intros [|y b]; cbn; split; intros H; try discriminate; auto.
  - apply andb_true_iff in H as [H1 H2]. apply Z.eqb_eq in H1. apply IH in H2. congruence.
  - assert (x = y /\ a = b) as [-> ->] by (split; congruence). rewrite Z.eqb_refl. cbn. now apply IH.
Qed.
Variable iface : Mdl -> iface_kind.
(** a distinct name is looked up at its own field *)
Lemma lookup_own (fs : list (field Mdl)) x : NoDup (map fname fs) -> In x fs -> lookup iface fs (fname x) = value_of iface x.
Proof using.
  unfold lookup. intros N I.
  assert (G : forall fs acc, (forall y, In y fs -> fname y <> fname x) -> fold_left (fun acc x0 => if list_eqb (fname x0) (fname x) then match value_of iface x0 with Some v => Some v | None => acc end else acc) fs acc = acc).
  { clear. induction fs as [|y fs IH]; intros acc H; [reflexivity|]. cbn [fold_left]. destruct (list_eqb (fname y) (fname x)) eqn:E; [apply list_eqb_spec in E; exfalso; apply (H y); [left|]; auto|].
    apply IH. intros z Iz. apply H. right. auto. }
  induction fs as [|y fs IH]; [destruct I|]. cbn [map] in N. inversion N as [|? ? Ny N']; subst. cbn [fold_left]. destruct I as [->|I].
  - rewrite (proj2 (list_eqb_spec _ _) eq_refl). rewrite G; [destruct (value_of iface x); auto|]. intros z Iz E. apply Ny. rewrite <- E. now apply in_map.
  - destruct (list_eqb (fname y) (fname x)) eqn:E; [apply list_eqb_spec in E; exfalso; apply Ny; rewrite E; now apply in_map|]. apply IH; auto.
Qed.
Lemma validate_valid (fs : list (field Mdl)) x v : NoDup (map fname fs) -> In x fs -> value_of iface x = Some v ->
  errs (validate_field iface fs x) = run_validators (vals x) v.
Proof using. intros N I V. unfold validate_field. rewrite (lookup_own fs x N I), V. reflexivity. Qed.
Lemma run_nil vs v : run_validators vs v = [] <-> forall g, In g vs -> g v = None.
Proof using.
  unfold run_validators. induction vs as [|g vs IH]; cbn [flat_map]; [split; auto; intros _ g []|]. split.
  - intros H. apply app_eq_nil in H as [H1 H2]. intros g' [<-|I]; [destruct (g v); [discriminate|auto]|]. apply IH; auto.
  - intros H. rewrite (H g (or_introl eq_refl)). cbn. apply IH. intros g' I. apply H. right; auto.
Qed.
End L.

Section Props.
Context {Mdl Msg : Type}.
Variable iface : Mdl -> iface_kind.
Variable upd : Mdl -> Msg -> option Mdl.
Variable key_msg : keymsg -> Msg.
Notation handle := (handle_key iface upd key_msg).
Notation step := (fstep iface upd key_msg).
Notation steps := (fsteps iface upd key_msg).
Definition form_ok (f : form Mdl) : Prop := 0 <= focused f /\ (focused f < nfields f \/ (fields f = [] /\ focused f = 0)).

Lemma fields_next (f : form Mdl) : length (fields (focus_next f)) = length (fields f).
Proof using. unfold focus_next. destruct (_ =? 0); cbn [fields]; auto using upd_at_length. Qed.
Lemma next_ok (f : form Mdl) : form_ok f -> form_ok (focus_next f).
Proof using.
  intros [K1 K2]. unfold form_ok, nfields. rewrite fields_next. unfold focus_next. destruct (nfields f =? 0) eqn:E; [split; auto|]. cbn [focused fields]. fold (nfields f).
  pose proof (Z.mod_pos_bound (focused f + 1) (nfields f)). unfold nfields in *. lia.
Qed.
Lemma prev_ok (f : form Mdl) : form_ok f -> form_ok (focus_prev f).
Proof using.
  intros [K1 K2]. unfold form_ok, focus_prev. destruct (nfields f =? 0) eqn:E; [split; auto|]. unfold nfields in *. cbn [focused fields]. rewrite upd_at_length. destruct (_ <? 0) eqn:?; split; try lia; left; try lia.
Qed.
Lemma delegate_ok (f : form Mdl) m : form_ok f -> form_ok (fst (delegate upd f m)).
Proof using.
  intros K. unfold delegate. destruct (nth_error _ _) as [x|]; auto. destruct (upd (mdl x) m) as [m'|]; auto. cbn [fst]. unfold update_field. destruct (_ || _); auto.
  destruct K as [K1 K2]. unfold form_ok, nfields in *. cbn [focused fields]. rewrite upd_at_length. split; auto. destruct K2 as [K2|[K2 K3]]; [auto|right]. rewrite K2. auto.
Qed.
Lemma step_ok (f : form Mdl) o : form_ok f -> form_ok (step f o).
Proof using.
  intros K. destruct o as [k|m|n m vs]; cbn [fstep].
  - unfold handle_key. destruct (faction_of k); cbn [fst]; auto using next_ok, prev_ok, delegate_ok.
    assert (V : forall b, form_ok (Form (fields (validate_all iface f)) (focused (validate_all iface f)) b)).
    { intros b. destruct K as [K1 K2]. unfold form_ok, nfields in *. cbn [validate_all fields focused]. rewrite map_length. split; auto. destruct K2 as [K2|[K2 K3]]; [auto|right]. rewrite K2. auto. }
    cbv zeta. destruct (is_valid _); cbn [fst]; [apply V|apply (V (submitted f))].
  - now apply delegate_ok.
  - destruct K as [K1 K2]. unfold add_field. cbv zeta. unfold form_ok, nfields in *. cbn [fields focused]. rewrite app_length. cbn [length].
    destruct (_ <=? _) eqn:E; lia.
Qed.

(* ---------- C37 ---------- *)
(** Whatever keys and messages arrive and whatever fields are added, the focus is on an existing field. *)
Theorem C37_focus_on_existing_field : forall ops, let f := steps ops new_form in
  (fields f = [] /\ focused f = 0) \/ exists x, nth_error (fields f) (Z.to_nat (focused f)) = Some x /\ 0 <= focused f < Z.of_nat (length (fields f)).
Proof using.
  intros ops. assert (K : forall f, form_ok f -> form_ok (steps ops f)) by (induction ops as [|o ops IH]; intros f K; [exact K|apply IH, step_ok, K]).
  cbv zeta. destruct (K new_form) as [K1 [K2|K2]]; [split; [cbn; lia|right; auto]| |left; auto]. right. unfold nfields in K2.
  destruct (nth_error (fields (steps ops new_form)) (Z.to_nat (focused (steps ops new_form)))) as [x|] eqn:E; [exists x; auto|]. apply nth_error_None in E. lia.
Qed.
(** Tab goes to the next field, from the last to the first; i Tabs move i places round, so all fields are visited; Shift-Tab
    takes a Tab back and a Tab a Shift-Tab. *)
Definition tab : fop Mdl Msg := FKey (plain KTab).
Definition shift_tab : fop Mdl Msg := FKey (Key KTab 0 false false true).
Theorem C37_tab_cycles : forall f : form Mdl, form_ok f -> fields f <> [] ->
  (forall i, focused (steps (repeat tab i) f) = (focused f + Z.of_nat i) mod nfields f) /\
  focused (step f shift_tab) = (focused f - 1) mod nfields f /\
  focused (step (step f tab) shift_tab) = focused f /\ focused (step (step f shift_tab) tab) = focused f.
Proof using.
  intros f K NE. assert (P : forall g : form Mdl, form_ok g -> fields g <> [] -> 0 <= focused g < nfields g /\ nfields g =? 0 = false).
  { intros g [K1 [K2|[K2 _]]] Ng; [|congruence]. split; lia. }
  assert (Nx : forall g : form Mdl, form_ok g -> fields g <> [] -> focused (step g tab) = (focused g + 1) mod nfields g).
  { intros g Kg Ng. destruct (P g Kg Ng) as [_ E]. cbn. unfold focus_next. now rewrite E. }
  assert (Pv : forall g : form Mdl, form_ok g -> fields g <> [] -> focused (step g shift_tab) = (focused g - 1) mod nfields g).
  { intros g Kg Ng. destruct (P g Kg Ng) as [B E]. cbn. unfold focus_prev. rewrite E. cbn [focused]. destruct (_ <? 0) eqn:L.
    - assert (focused g = 0) by lia. rewrite H. change (0 - 1) with (-1). rewrite <- (Z_mod_plus_full (-1) 1 (nfields g)). rewrite Z.mod_small; lia.
    - rewrite Z.mod_small; lia. }
  assert (Ne : forall g : form Mdl, fields g <> [] -> nfields (step g tab) = nfields g /\ fields (step g tab) <> []).
  { intros g Ng. cbn. unfold nfields. rewrite fields_next. split; auto. intros H. apply (f_equal (@length _)) in H. rewrite fields_next in H. destruct (fields g); cbn in H; congruence. }
  assert (Np : forall g : form Mdl, fields g <> [] -> nfields (step g shift_tab) = nfields g /\ fields (step g shift_tab) <> []).
  { intros g Ng. assert (L : length (fields (step g shift_tab)) = length (fields g)) by (cbn; unfold focus_prev; destruct (_ =? 0); cbn [fields]; auto using upd_at_length).
    unfold nfields. rewrite L. split; auto. intros H. apply (f_equal (@length _)) in H. rewrite L in H. destruct (fields g); cbn in H; congruence. }
  destruct (P f K NE) as [B Eb].
  split; [|split; [apply Pv; auto|split]].
  - intros i. revert f K NE B Eb. induction i as [|i IH]; intros f K NE B Eb; [cbn; rewrite Z.add_0_r, Z.mod_small; lia|].
    cbn [repeat]. change (steps (tab :: repeat tab i) f) with (steps (repeat tab i) (step f tab)). destruct (Ne f NE) as [N1 N2].
    rewrite IH; auto; [|now apply step_ok|apply P; auto using step_ok|apply P; auto using step_ok]. rewrite N1, Nx by auto. rewrite Zplus_mod_idemp_l. f_equal. lia.
  - destruct (Ne f NE) as [N1 N2]. rewrite Pv by (auto using step_ok). rewrite N1, Nx by auto. rewrite Zminus_mod_idemp_l. replace (focused f + 1 - 1) with (focused f) by lia. apply Z.mod_small; lia.
  - destruct (Np f NE) as [N1 N2]. rewrite Nx by (auto using step_ok). rewrite N1, Pv by auto. rewrite Zplus_mod_idemp_l. replace (focused f - 1 + 1) with (focused f) by lia. apply Z.mod_small; lia.
Qed.
(** Fields with distinct names that all have a value: Enter submits exactly if every validator of every field accepts the
    field's current value; otherwise the form stays unsubmitted and each field lists exactly its validators' complaints. *)
Definition accepts (x : field Mdl) : Prop := forall v, value_of iface x = Some v -> forall g, In g (vals x) -> g v = None.
Theorem C37_submit_iff_valid : forall f : form Mdl, NoDup (map fname (fields f)) -> (forall x, In x (fields f) -> value_of iface x <> None) ->
  let r := handle f (plain KEnter) in
  (snd r = FcSubmit <-> forall x, In x (fields f) -> accepts x) /\
  (snd r = FcSubmit -> submitted (fst r) = true) /\ (snd r <> FcSubmit -> snd r = FcNone /\ submitted (fst r) = submitted f) /\
  focused (fst r) = focused f /\
  map (fun x => (fname x, mdl x)) (fields (fst r)) = map (fun x => (fname x, mdl x)) (fields f) /\
  (forall i x, nth_error (fields f) i = Some x -> exists y v, nth_error (fields (fst r)) i = Some y /\ value_of iface x = Some v /\ errs y = run_validators (vals x) v).
Proof using.
  intros f N H. cbv zeta.
  assert (V : is_valid (validate_all iface f) = true <-> forall x, In x (fields f) -> accepts x).
  { unfold is_valid, validate_all. cbn [fields]. rewrite forallb_forall. split.
    - intros A x I v E. rewrite <- run_nil. rewrite <- (validate_valid iface (fields f) x v N I E). specialize (A _ (in_map (validate_field iface (fields f)) _ _ I)). unfold field_valid in A. destruct (errs _); auto. discriminate.
    - intros A y Iy. apply in_map_iff in Iy as (x & <- & I). unfold field_valid. destruct (value_of iface x) as [v|] eqn:E; [|destruct (H x I E)].
      rewrite (validate_valid iface (fields f) x v N I E). destruct (run_validators (vals x) v) eqn:R; auto. exfalso. rewrite (proj2 (run_nil (vals x) v) (A x I v E)) in R. discriminate. }
  assert (Fl : fields (fst (handle f (plain KEnter))) = map (validate_field iface (fields f)) (fields f) /\ focused (fst (handle f (plain KEnter))) = focused f).
  { unfold handle_key. change (faction_of (plain KEnter)) with FSubmit. cbv iota zeta. destruct (is_valid _); auto. }
  destruct Fl as [Fl Fo]. rewrite Fl, Fo.
  assert (S : snd (handle f (plain KEnter)) = if is_valid (validate_all iface f) then FcSubmit else FcNone) by (unfold handle_key; change (faction_of (plain KEnter)) with FSubmit; cbv iota zeta; destruct (is_valid _); auto).
  rewrite S. split; [rewrite <- V; destruct (is_valid _); split; congruence|].
  split; [unfold handle_key; change (faction_of (plain KEnter)) with FSubmit; cbv iota zeta; destruct (is_valid _); [reflexivity|discriminate]|].
  split; [unfold handle_key; change (faction_of (plain KEnter)) with FSubmit; cbv iota zeta; destruct (is_valid _); [congruence|auto]|].
  split; auto. split.
  - rewrite map_map. apply map_ext. intros x. unfold validate_field. destruct (lookup _ _ _); reflexivity.
  - intros i x E. rewrite nth_error_map, E. assert (I : In x (fields f)) by (eapply nth_error_In; eauto). destruct (value_of iface x) as [v|] eqn:Ev; [|destruct (H x I Ev)].
    exists (validate_field iface (fields f) x), v. split; auto. split; auto. now apply validate_valid.
Qed.
(** No other key submits. *)
Theorem C37_only_enter_submits : forall (f : form Mdl) k, ktype k <> KEnter ->
  snd (handle f k) <> FcSubmit /\ submitted (step f (FKey k)) = submitted f.
Proof using.
  intros f k N.
  assert (D : forall m, snd (delegate upd f m) <> FcSubmit /\ submitted (fst (delegate upd f m)) = submitted f).
  { intros m. unfold delegate. destruct (nth_error _ _) as [x|]; [|split; [discriminate|auto]]. destruct (upd (mdl x) m); cbn [fst snd]; [|split; [discriminate|auto]].
    split; [discriminate|]. unfold update_field. destruct (_ || _); auto. }
  cbn [fstep]. unfold handle_key, faction_of. destruct (ktype k) eqn:E; try congruence; try apply D; cbn [fst snd]; try (split; [discriminate|reflexivity]).
  destruct (kshift k); cbn [fst snd]; split; try discriminate; [unfold focus_prev|unfold focus_next]; destruct (_ =? 0); auto.
Qed.
(** A form is submitted exactly when Enter once submitted it: a new form is not. *)
Theorem C37_submitted_by_enter : forall ops, submitted (steps ops new_form) = true <->
  exists pre k post, ops = pre ++ FKey k :: post /\ ktype k = KEnter /\ snd (handle (steps pre new_form) k) = FcSubmit.
Proof using.
  assert (Msg_ : forall (f : form Mdl) m, submitted (fst (delegate upd f m)) = submitted f).
  { intros f m. unfold delegate. destruct (nth_error _ _) as [x|]; [|reflexivity]. destruct (upd (mdl x) m); cbn [fst]; [|reflexivity]. unfold update_field. destruct (_ || _); reflexivity. }
  assert (St : forall (f : form Mdl) o, submitted (step f o) = true <-> submitted f = true \/ exists k, o = FKey k /\ ktype k = KEnter /\ snd (handle f k) = FcSubmit).
  { intros f [k|m|n m vs].
    - assert (D : ktype k = KEnter \/ ktype k <> KEnter) by (destruct (ktype k); (left; reflexivity) || (right; discriminate)). destruct D as [D|D].
      + cbn [fstep]. unfold handle_key, faction_of. rewrite D. cbv zeta. destruct (is_valid (validate_all iface f)) eqn:Ev; cbn [fst snd submitted validate_all].
        * split; [|reflexivity]. intros _. right. exists k. rewrite D. split; auto.
        * split; [auto|]. intros [Q|(k' & Q & D' & S')]; [exact Q|]. injection Q as <-. rewrite D in S'. discriminate.
      + destruct (C37_only_enter_submits f k D) as [_ Q]. rewrite Q. split; [auto|]. intros [A|(k' & A & B & _)]; [exact A|]. injection A as <-. congruence.
    - cbn [fstep]. rewrite Msg_. split; [auto|]. intros [A|(k & A & _)]; [exact A|discriminate].
    - cbn [fstep add_field submitted]. split; [auto|]. intros [A|(k & A & _)]; [exact A|discriminate]. }
  intros ops. induction ops as [|o ops IH] using rev_ind.
  - split; [discriminate|]. intros (pre & k & post & E & _). destruct pre; discriminate.
  - unfold fsteps in *. rewrite fold_left_app. cbn [fold_left]. rewrite St, IH. split.
    + intros [(pre & k & post & -> & A & B)|(k & -> & A & B)]; [exists pre, k, (post ++ [o]); split; [rewrite <- app_assoc; reflexivity|auto]|exists ops, k, []; auto].
    + intros (pre & k & post & E & A & B). destruct post as [|x post _] using rev_ind.
      * apply app_inj_tail in E as [-> ->]. right. exists k. auto.
      * left. exists pre, k, post. split; [|auto]. change (pre ++ FKey k :: post ++ [x]) with (pre ++ (FKey k :: post) ++ [x]) in E. rewrite app_assoc in E. apply app_inj_tail in E as [-> _]. reflexivity.
Qed.
(** Keys that are not Tab, Enter, Escape go to the focused field only. *)
Theorem C37_keys_reach_focused_field_only : forall (f : form Mdl) k, faction_of k = FNone -> form_ok f ->
  forall i x, nth_error (fields f) i = Some x -> exists y, nth_error (fields (step f (FKey k))) i = Some y /\ fname y = fname x /\
    mdl y = (if Z.of_nat i =? focused f then match upd (mdl x) (key_msg k) with Some m => m | None => mdl x end else mdl x).
Proof using.
  intros f k A K i x E. cbn [fstep]. unfold handle_key. rewrite A. unfold delegate.
  assert (L : (i < length (fields f))%nat) by (apply nth_error_Some; congruence).
  destruct (nth_error (fields f) (Z.to_nat (focused f))) as [z|] eqn:Z1.
  2: { exists x. split; [exact E|]. split; [auto|]. apply nth_error_None in Z1. replace (_ =? _) with false by lia. reflexivity. }
  destruct (upd (mdl z) (key_msg k)) as [m'|] eqn:U; cbn [fst].
  - unfold update_field. destruct ((focused f <? 0) || (nfields f <=? focused f)) eqn:O.
    + apply orb_true_iff in O. destruct K as [K1 [K2|[K2 _]]]; [unfold nfields in *; lia|]. rewrite K2 in L. cbn in L. lia.
    + cbn [fields]. rewrite upd_at_nth, E. destruct (Z.eqb_spec (Z.of_nat i) (focused f)) as [Q|Q].
      * eexists. split; [reflexivity|]. split; [reflexivity|]. cbn [mdl]. assert (z = x) by (rewrite <- Q, Nat2Z.id in Z1; congruence). subst z. now rewrite U.
      * eexists. split; [reflexivity|]. auto.
  - exists x. split; [exact E|]. split; auto. destruct (Z.eqb_spec (Z.of_nat i) (focused f)) as [Q|Q]; auto. assert (z = x) by (rewrite <- Q, Nat2Z.id in Z1; congruence). subst z. now rewrite U.
Qed.
(* ---------- C78 ---------- *)
(** What the code guarantees for all forms, same names or missing values included: at a submission every field whose name has
    some value passes its validators on that value. *)
Theorem C262_submitted_fields_pass : forall f : form Mdl, snd (handle f (plain KEnter)) = FcSubmit ->
  forall x, In x (fields f) ->
    match lookup iface (fields f) (fname x) with Some v => forall g, In g (vals x) -> g v = None | None => errs x = [] end.
Proof using.
  intros f H x I. unfold handle_key in H. change (faction_of (plain KEnter)) with FSubmit in H. cbv iota zeta in H. destruct (is_valid (validate_all iface f)) eqn:V; [|discriminate].
  unfold is_valid, validate_all in V. cbn [fields] in V. rewrite forallb_forall in V. specialize (V _ (in_map (validate_field iface (fields f)) _ _ I)).
  unfold field_valid, validate_field in V. destruct (lookup iface (fields f) (fname x)) as [v|].
  - rewrite <- run_nil. cbn [errs with_errors] in V. destruct (run_validators (vals x) v); auto. discriminate.
  - destruct (errs x); auto. discriminate.
Qed.
End Props.

(** Field components for the examples: a text input, a select with or without a choice. *)
Inductive comp := Text (s : list Z) | Choice (v : option val).
Definition ci (c : comp) : iface_kind := match c with Text s => HasValue s | Choice v => HasSelected v end.
Definition cu (c : comp) (k : keymsg) : option comp := match c with Text s => match ktype k with KRune => Some (Text (s ++ [krune k])) | _ => None end | Choice _ => None end.
Definition fx (ops : list (fop comp keymsg)) := fsteps ci cu (fun k => k) ops new_form.
Definition two := [FAdd [110] (Text []) [required; min_length 2]; FAdd [109] (Choice (Some (VOther 3))) [required]] : list (fop comp keymsg).
Example C37_ex1 : snd (handle_key ci cu (fun k => k) (fx two) (plain KEnter)) = FcNone /\ map errs (fields (fx (two ++ [FKey (plain KEnter)]))) = [[e_required; e_short 2]; []].
Proof. split; reflexivity. Qed.
Example C37_ex2 : let f := fx (two ++ [FKey (plain KTab); FKey (plain KTab); FKey (rune_key 97); FKey (rune_key 98)]) in
  snd (handle_key ci cu (fun k => k) f (plain KEnter)) = FcSubmit /\ focused f = 0 /\ form_ok f.
Proof. split; [reflexivity|]. split; [reflexivity|]. split; [cbn; lia|]. left. cbn. lia. Qed.
Example C37_ex3 : NoDup (map fname (fields (fx two))) /\ forall x, In x (fields (fx two)) -> value_of ci x <> None.
Proof. split; [repeat constructor; cbn; intuition discriminate|]. intros x [<-|[<-|[]]]; discriminate. Qed.
(** A required Select with nothing selected does not keep the form from being submitted. *)
Theorem C78_required_select_skipped_refuted :
  let f := fx [FAdd [109] (Choice None) [required]] in snd (handle_key ci cu (fun k => k) f (plain KEnter)) = FcSubmit.
Proof. reflexivity. Qed.
(** Two fields of the same name: the empty required one passes on the other's value. *)
Theorem C78_same_name_refuted :
  let f := fx [FAdd [110] (Text []) [required]; FAdd [110] (Text [97]) [required]] in snd (handle_key ci cu (fun k => k) f (plain KEnter)) = FcSubmit.
Proof. reflexivity. Qed.

(* ---------- C79 ---------- *)
(** The text the length validators are about: UTF-8 of a list of characters. *)
Definition text (cs : list Z) : list Z := concat (map enc_rune cs).
Theorem C79_lengths_ascii : forall n cs, Forall (fun c => 0 <= c < 128) cs ->
  (min_length n (VStr (text cs)) = None <-> n <= Z.of_nat (length cs)) /\ (max_length n (VStr (text cs)) = None <-> Z.of_nat (length cs) <= n).
Proof.
  intros n cs F. assert (L : length (text cs) = length cs).
  { unfold text. induction F as [|c cs B F IH]; cbn [map concat]; auto. rewrite app_length, IH. replace (length (enc_rune c)) with 1%nat; auto.
    unfold enc_rune. repeat match goal with |- context [if ?b then _ else _] => destruct b eqn:? end; auto; lia. }
  unfold min_length, max_length. rewrite L. split; match goal with |- context [if ?b then _ else _] => destruct b eqn:? end; split; intros; try congruence; try lia.
Qed.
(** Outside ASCII they count bytes: one two-byte character satisfies a minimum of 2 and two of them exceed a maximum of 3. *)
Theorem C177_lengths_count_bytes_refuted : min_length 2 (VStr (text [228])) = None /\ max_length 3 (VStr (text [228; 246])) <> None.
Proof. split; [reflexivity|discriminate]. Qed.
(** For any text, the minimum never rejects a text that is long enough, the maximum never accepts one that is too long. *)
Theorem C79_lengths_one_sided : forall n cs, (n <= Z.of_nat (length cs) -> min_length n (VStr (text cs)) = None) /\ (max_length n (VStr (text cs)) = None -> Z.of_nat (length cs) <= n).
Proof.
  intros n cs. assert (L : (length cs <= length (text cs))%nat).
  { unfold text. induction cs as [|c cs IH]; cbn [map concat length]; auto. rewrite app_length. assert (1 <= length (enc_rune c))%nat; [|lia].
    unfold enc_rune. repeat match goal with |- context [if ?b then _ else _] => destruct b end; cbn [length]; lia. }
  unfold min_length, max_length. split; match goal with |- context [if ?b then _ else _] => destruct b eqn:? end; intros; try congruence; try lia.
Qed.

(* ---------- C80 ---------- *)
(** No input, however chunked, is delivered as Shift-Tab (or any other shifted key): the parser knows no such sequence. *)
Lemma parse_key_noshift bytes k : parse_key bytes = Some k -> kshift k = false.
Proof.
  revert bytes. intros d. destruct d as [|b d]; [discriminate|]. destruct d as [|b2 d].
  - cbn [parse_key]. unfold parse1. repeat (match goal with |- context [if ?b then _ else _] => destruct b end; [intros H; apply some_inj in H; subst; reflexivity|]). discriminate.
  - cbn [parse_key]. set (dd := b :: b2 :: d). destruct (_ =? 27); [|discriminate].
    assert (O : forall x y, (x = Some k -> kshift k = false) -> (y = Some k -> kshift k = false) -> orelse x y = Some k -> kshift k = false) by (intros [x|] y H1 H2; cbn; auto).
    assert (X : forall (c : bool) x, (x = Some k -> kshift k = false) -> (if c then x else None) = Some k -> kshift k = false) by (intros [] x H; auto; discriminate).
    repeat apply O; apply X; unfold parse_arrow, parse_ss3, parse_tilde, parse_hf;
      repeat (match goal with |- context [if ?b then _ else _] => destruct b end; [intros H; apply some_inj in H; subst; reflexivity|]); discriminate.
Qed.
Theorem C80_no_shifted_key_refuted : forall chunks k, In k (delivered chunks) -> kshift k = false.
Proof.
  intros cs k. unfold delivered. generalize (RS [] cs). generalize (S (length (concat cs))) as f. induction f as [|f IH]; intros s I; [destruct I|].
  cbn [read_all] in I. destruct (read s) as [[[q|] s']|] eqn:R; [|apply (IH _ I)|destruct I]. destruct I as [->|I]; [|apply (IH _ I)].
  unfold read in R. destruct (read_byte s) as [[b s1]|]; [|discriminate]. destruct (if b =? 27 then _ else _) as [sq s2]. destruct (parse_key sq) as [q|] eqn:P.
  - apply some_inj in R. pose proof (f_equal fst R) as R1. cbn in R1. apply some_inj in R1. subst q. apply (parse_key_noshift _ _ P).
  - destruct (128 <=? b).
    + destruct (read_rune _) as [r s3]. apply some_inj in R. pose proof (f_equal fst R) as R1. cbn in R1. apply some_inj in R1. subst k. reflexivity.
    + destruct (_ && _); [|discriminate]. apply some_inj in R. pose proof (f_equal fst R) as R1. cbn in R1. apply some_inj in R1. subst k. reflexivity.
Qed.
(** xterm's Shift-Tab (ESC [ Z) is swallowed: the form sees no key. *)
Theorem C80_shift_tab_swallowed_refuted : delivered [[27; 91; 90]] = [].
Proof. reflexivity. Qed.

(* ---------- C81 ---------- *)
Lemma set_nth_length l i v : (i < length l)%nat -> length (set_nth l i v) = length l.
Proof. intros H. unfold set_nth. rewrite app_length. cbn [length]. rewrite firstn_length, skipn_length. lia. Qed.
Lemma nth_replace (m : memory) k a j : (k < length m)%nat -> nth j (firstn k m ++ a :: skipn (S k) m) [] = if (j =? k)%nat then a else nth j m [].
Proof.
  intros H. revert k j H. induction m as [|x m IH]; intros k j H; [cbn in H; lia|]. destruct k as [|k]; [destruct j; reflexivity|]. cbn [length] in H.
  destruct j as [|j]; [reflexivity|]. cbn [firstn app nth skipn Nat.eqb]. apply IH. lia.
Qed.
Definition live (m : memory) (s : slice) : Prop := (arr s < length m)%nat /\ (len s <= length (nth (arr s) m []))%nat.
(** Appending leaves every slice unchanged that does not extend beyond the appended one in the same array. *)
Theorem C81_append_keeps_others : forall grow m s v t, live m s -> live m t -> (arr t = arr s -> (len t <= len s)%nat \/ len s = length (nth (arr s) m [])) ->
  let '(m', s') := append1 grow m s v in contents m' t = contents m t /\ contents m' s' = contents m s ++ [v].
Proof.
  intros grow m s v t [S1 S2] [T1 T2] A. unfold append1. destruct (len s <? length (nth (arr s) m []))%nat eqn:E.
  - assert (Lt : (len s < length (nth (arr s) m []))%nat) by lia. unfold contents. cbn [arr len]. rewrite !nth_replace by auto. rewrite Nat.eqb_refl. split.
    + destruct (Nat.eqb_spec (arr t) (arr s)) as [Q|Q]; auto. destruct (A Q) as [A1|A1]; [|lia]. rewrite Q. unfold set_nth. rewrite firstn_app, firstn_firstn, firstn_length.
      replace (len t - Nat.min (len s) (length (nth (arr s) m [])))%nat with 0%nat by lia. cbn [firstn]. rewrite app_nil_r. f_equal. lia.
    + unfold set_nth. rewrite firstn_app, firstn_firstn, firstn_length. replace (Nat.min (S (len s)) (len s)) with (len s) by lia.
      replace (S (len s) - Nat.min (len s) (length (nth (arr s) m [])))%nat with 1%nat by lia. reflexivity.
  - unfold contents. cbn [arr len]. split; [now rewrite app_nth1|]. rewrite app_nth2 by lia. rewrite Nat.sub_diag. cbn [nth]. rewrite firstn_app, firstn_firstn, firstn_length.
    replace (Nat.min (S (len s)) (len s)) with (len s) by lia. replace (S (len s) - Nat.min (len s) (length (nth (arr s) m [])))%nat with 1%nat by lia. reflexivity.
Qed.
(** So adding fields to a form whose slice was freshly copied (after any Tab or Enter) affects no other form. *)
Theorem C81_after_copy_independent : forall grow m s v t, live m s -> live m t ->
  let '(m1, s1) := fresh_copy m s in let '(m2, s2) := append1 grow m1 s1 v in contents m2 t = contents m t /\ contents m2 s1 = contents m s /\ contents m2 s2 = contents m s ++ [v].
Proof.
  intros grow m s v t [S1 S2] [T1 T2]. unfold fresh_copy. set (m1 := m ++ [contents m s]). set (s1 := Slice (length m) (len s)).
  assert (C1 : contents m1 s1 = contents m s) by (unfold contents at 1; subst m1 s1; cbn [arr len]; rewrite app_nth2 by lia; rewrite Nat.sub_diag; cbn [nth]; unfold contents; rewrite firstn_firstn; f_equal; lia).
  assert (Ct : contents m1 t = contents m t) by (unfold contents; subst m1; now rewrite app_nth1).
  assert (L1 : live m1 s1). { subst m1 s1. split; cbn [arr len]; [rewrite app_length; cbn; lia|]. rewrite app_nth2 by lia. rewrite Nat.sub_diag. cbn [nth]. unfold contents. rewrite firstn_length. lia. }
  assert (Lt : live m1 t). { subst m1. split; [rewrite app_length; lia|]. now rewrite app_nth1. }
  pose proof (C81_append_keeps_others grow m1 s1 v t L1 Lt) as P. pose proof (C81_append_keeps_others grow m1 s1 v s1 L1 L1) as Q.
  destruct (append1 grow m1 s1 v) as [m2 s2]. rewrite <- C1, <- Ct. destruct P as [P1 P2]; [subst s1; cbn [arr]; lia|]. destruct Q as [Q1 Q2]; [left; lia|]. auto.
Qed.
Definition go_grow (n : nat) : nat := if (n =? 0)%nat then 1%nat else (2 * n)%nat.
(** Two forms extended from the same three-field form share the fourth slot: the first one's new field is replaced. *)
Theorem C178_branching_forms_share_refuted :
  let '(m1, s1) := append1 go_grow [[]] (Slice 0 0) 1 in let '(m2, s2) := append1 go_grow m1 s1 2 in let '(m3, s3) := append1 go_grow m2 s2 3 in
  let '(m4, a) := append1 go_grow m3 s3 4 in let '(m5, b) := append1 go_grow m4 s3 5 in
  contents m4 a = [1; 2; 3; 4] /\ contents m5 a = [1; 2; 3; 5] /\ contents m5 b = [1; 2; 3; 5].
Proof. repeat split; reflexivity. Qed.

Print Assumptions C37_focus_on_existing_field. Print Assumptions C37_tab_cycles. Print Assumptions C37_submit_iff_valid. Print Assumptions C37_only_enter_submits.
Print Assumptions C37_submitted_by_enter. Print Assumptions C37_keys_reach_focused_field_only. Print Assumptions C262_submitted_fields_pass. Print Assumptions C78_required_select_skipped_refuted.
Print Assumptions C78_same_name_refuted. Print Assumptions C79_lengths_ascii. Print Assumptions C177_lengths_count_bytes_refuted. Print Assumptions C79_lengths_one_sided.
Print Assumptions C80_no_shifted_key_refuted. Print Assumptions C80_shift_tab_swallowed_refuted. Print Assumptions C81_append_keeps_others. Print Assumptions C81_after_copy_independent.
Print Assumptions C178_branching_forms_share_refuted.
