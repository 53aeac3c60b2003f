(** C310: components as fields of a form. Models: FmCompModel, FmModel. *)
From Verif Require Import Prelude KeysModel InModel InSpec FmModel FmCompModel.

(** ** Specification *)
(** "Any Phoenix component works": an ordinary key given to the form does to the focused field's component what
    the component's own Update does. *)
Definition component_works (S : Type) (step : component -> S -> keymsg -> S) (iface : component * S -> iface_kind) : Prop :=
  forall name c (s : S) k, faction_of k = FNone ->
    map mdl (fields (fst (handle_key iface (upd_through step) (fun k => k) (add_field new_form name (c, s) []) k))) = [(c, step c s k)].

(** ** Proofs *)
Lemma not_updatable c : updatable (update_method c) = false.
Proof. destruct c; reflexivity. Qed.

Section Any.
Variables (S Msg : Type) (step : component -> S -> Msg -> S) (iface : component * S -> iface_kind) (key_msg : keymsg -> Msg).
Notation fst_ := (fstep iface (upd_through step) key_msg).
Lemma mdl_upd_at (g : field (component * S) -> field (component * S)) l i : (forall x, mdl (g x) = mdl x) -> map mdl (upd_at l i g) = map mdl l.
Proof.
  intros Hg. unfold upd_at. rewrite map_map. generalize 0%nat as n. induction l as [|x l IH]; intros n; [reflexivity|].
  cbn [length seq combine map fst snd]. rewrite IH. destruct (_ =? i); [rewrite Hg|]; reflexivity.
Qed.
Lemma delegate_same f m : delegate (upd_through step) f m = (f, FcNone).
Proof. unfold delegate, upd_through. destruct (nth_error _ _) as [x|]; [|reflexivity]. rewrite not_updatable. reflexivity. Qed.
Lemma mdl_kept f o : (forall n m vs, o <> FAdd n m vs) -> map mdl (fields (fst_ f o)) = map mdl (fields f).
Proof.
  intros Ho. destruct o as [k|m|n m vs]; cbn [fstep].
  - unfold handle_key. destruct (faction_of k); cbn [fst].
    + unfold focus_next. destruct (nfields f =? 0); [reflexivity|]. apply mdl_upd_at. reflexivity.
    + unfold focus_prev. destruct (nfields f =? 0); [reflexivity|]. apply mdl_upd_at. reflexivity.
    + assert (Hv : map mdl (fields (validate_all iface f)) = map mdl (fields f)).
      { unfold validate_all. cbn [fields]. rewrite map_map. apply map_ext. intros x. unfold validate_field. destruct (lookup _ _ _); reflexivity. }
      destruct (is_valid _); exact Hv.
    + reflexivity.
    + rewrite delegate_same. reflexivity.
  - rewrite delegate_same. reflexivity.
  - exfalso. exact (Ho n m vs eq_refl).
Qed.

(** ** C310 *)
(** Whatever keys and messages a form is given, every component in it stays exactly as it was put in. *)
Theorem C310_components_never_change : forall os f, (forall n m vs, ~ In (FAdd n m vs) os) ->
  map mdl (fields (fsteps iface (upd_through step) key_msg os f)) = map mdl (fields f).
Proof.
  induction os as [|o os IH]; intros f Hno; [reflexivity|]. change (fsteps iface (upd_through step) key_msg (o :: os) f) with (fsteps iface (upd_through step) key_msg os (fst_ f o)).
  rewrite IH by (intros n m vs Hin; apply (Hno n m vs); right; exact Hin). apply mdl_kept. intros n m vs ->. apply (Hno n m vs). left. reflexivity.
Qed.
End Any.

(** Refuted, for whatever component reacts to any key at all. *)
Theorem C310_component_works_refuted : forall (S : Type) step iface c (s : S) k, faction_of k = FNone -> step c s k <> s -> ~ component_works S step iface.
Proof.
  intros S step iface c s k Hk Hs H. specialize (H [] c s k Hk).
  pose proof (C310_components_never_change S keymsg step iface (fun k => k) [FKey k] (add_field new_form [] (c, s) [])) as Hn.
  cbn [fsteps fold_left fstep] in Hn. unfold fsteps in Hn. cbn [fold_left fstep] in Hn. rewrite H in Hn.
  assert (Hx : [(c, step c s k)] = [(c, s)]). { rewrite Hn; [reflexivity|]. intros n m vs [Hin|[]]. discriminate. }
  congruence.
Qed.
(** A text input reacts: focused, it takes the key "a". *)
Example C310_reacts : let i := iapply every (IFocus true) (new_inp 10) in
  faction_of (rune_key 97) = FNone /\ iapply every (IKeyOp (IKey false 97 IRune)) i <> i.
Proof. cbn zeta. split; [reflexivity|]. vm_compute. discriminate. Qed.
(** The model is not blind: a component with the method the form asks for is updated. *)
Example C310_wanted_is_updated : updatable (Some wanted) = true.
Proof. reflexivity. Qed.
Example C310_case : forall step iface, map mdl (fields (fsteps (Mdl := component * Z) iface (upd_through step) (fun k => k)
    [FAdd [110] (CInput, 0) [required]; FKey (rune_key 97); FKey (plain KTab)] new_form)) = [(CInput, 0)].
Proof. reflexivity. Qed.

Print Assumptions C310_components_never_change. Print Assumptions C310_component_works_refuted.
