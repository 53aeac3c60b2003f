(** The fluent API as a whole: what each call changes, what it does not, and what a container keeps of the boxes added to it. *)
From Verif Require Import Prelude Text LyModel LyProofs LyApiModel.
(* ---------- C187 ---------- *)
Definition nat_ (v : Z) : Z := Z.max 0 v.          (* negative spacing is none *)
Definition opt (v : Z) : Z := if v <? 0 then -1 else v.   (* a negative size is "not set" *)
(** Every setter changes the thing it is named after and nothing else; it panics exactly if it would make a maximum smaller than its minimum. *)
Theorem C187_setters : forall sw b c, reach sw b ->
  match bstep b (call_op c) with
  | Some b' =>
      content b' = content b /\
      padding b' = match c with CPadding t r m l => Sp (nat_ t) (nat_ r) (nat_ m) (nat_ l) | CPaddingAll p => Sp (nat_ p) (nat_ p) (nat_ p) (nat_ p) | CPaddingVH v h => Sp (nat_ v) (nat_ h) (nat_ v) (nat_ h) | _ => padding b end /\
      margin b' = match c with CMargin t r m l => Sp (nat_ t) (nat_ r) (nat_ m) (nat_ l) | CMarginAll p => Sp (nat_ p) (nat_ p) (nat_ p) (nat_ p) | CMarginVH v h => Sp (nat_ v) (nat_ h) (nat_ v) (nat_ h) | _ => margin b end /\
      border b' = match c with CBorder => true | CNoBorder => false | _ => border b end /\
      sw_ (bsize b') = match c with CSize (SWidth v) => opt v | _ => sw_ (bsize b) end /\ sh_ (bsize b') = match c with CSize (SHeight v) => opt v | _ => sh_ (bsize b) end /\
      minw (bsize b') = match c with CSize (SMinW v) => opt v | _ => minw (bsize b) end /\ maxw (bsize b') = match c with CSize (SMaxW v) => opt v | _ => maxw (bsize b) end /\
      minh (bsize b') = match c with CSize (SMinH v) => opt v | _ => minh (bsize b) end /\ maxh (bsize b') = match c with CSize (SMaxH v) => opt v | _ => maxh (bsize b) end /\
      (bhal b', bval b') = match c with CAlignLeft | CAlignTop => (HLeft, VTop) | CAlignCenter => (HCenter, VMiddle) | CAlignRight => (HRight, VTop) | CAlignMiddle => (HLeft, VMiddle) | CAlignBottom => (HLeft, VBottom) | CAlign h v => (h, v) | _ => (bhal b, bval b) end
  | None => match c with
            | CSize (SMinW v) => 0 <= maxw (bsize b) < v | CSize (SMaxW v) => 0 <= v < minw (bsize b)
            | CSize (SMinH v) => 0 <= maxh (bsize b) < v | CSize (SMaxH v) => 0 <= v < minh (bsize b)
            | _ => False
            end
  end.
Proof.
  intros sw b c R. apply reach_wf in R as ((W1 & W2 & W3 & W4 & W5 & W6 & W7 & W8) & _ & _ & _). assert (N : forall v, -1 <= v -> neg1 v = v) by (intros v V; unfold neg1; destruct (v <? 0) eqn:?; lia).
  destruct c as [o|? ? ? ?|?|? ?| | |? ? ? ?|?|? ?| | | | | | |? ?]; cbn [call_op bstep]; try (repeat split; reflexivity).
  assert (OV : forall v, neg1 v = opt v) by reflexivity.
  destruct o as [v|v|v|v|v|v]; cbn [with_size_op]; unfold new_size; rewrite ?(N _ W1), ?(N _ W2), ?(N _ W3), ?(N _ W4), ?(N _ W5), ?(N _ W6); rewrite ?OV; unfold opt;
  repeat match goal with |- context [if ?x then None else _] => destruct x eqn:? end;
  cbn [content padding margin border bsize bhal bval sw_ sh_ minw maxw minh maxh]; try (repeat split; reflexivity); destruct (v <? 0) eqn:?; lia.
Qed.
(** A new box has its content, no spacing, no border, no size and sits top left; an empty content panics. A new container is empty,
    packs its items at the start without gaps and has no size. *)
Theorem C187_new : (forall c, new_box c = None <-> c = []) /\
  (forall c b, new_box c = Some b -> content b = c /\ padding b = Sp 0 0 0 0 /\ margin b = Sp 0 0 0 0 /\ border b = false /\ bsize b = Size (-1) (-1) (-1) (-1) (-1) (-1) /\ bhal b = HLeft /\ bval b = VTop) /\
  (forall h, let x := new_fobj h in horizontal (fdom x) = h /\ items (fdom x) = [] /\ fgap (fdom x) = 0 /\ fjust (fdom x) = JStart /\ falign (fdom x) = AStretch /\ fsize x = Size (-1) (-1) (-1) (-1) (-1) (-1)).
Proof.
  split; [intros [|a c]; split; intros; try reflexivity; discriminate|]. split; [|intros h; repeat split; reflexivity].
  intros c b E. unfold new_box in E. destruct c; [discriminate|]. apply some_inj in E. subst b. repeat split; reflexivity.
Qed.
(** The same for containers; the gap may not be negative. *)
Theorem C187_container_setters : forall x c, -1 <= sw_ (fsize x) -> -1 <= sh_ (fsize x) -> minw (fsize x) = -1 -> maxw (fsize x) = -1 -> minh (fsize x) = -1 -> maxh (fsize x) = -1 ->
  match fstep x c with
  | Some x' => horizontal (fdom x') = horizontal (fdom x) /\ items (fdom x') = items (fdom x) /\
      fgap (fdom x') = match c with FGap g => g | _ => fgap (fdom x) end /\ fjust (fdom x') = match c with FJustify j => j | _ => fjust (fdom x) end /\ falign (fdom x') = match c with FAlign a => a | _ => falign (fdom x) end /\
      fsize x' = match c with FWidth w => Size (opt w) (sh_ (fsize x)) (-1) (-1) (-1) (-1) | FHeight h => Size (sw_ (fsize x)) (opt h) (-1) (-1) (-1) (-1) | _ => fsize x end
  | None => exists g, c = FGap g /\ g < 0
  end.
Proof.
  intros [f [a b c0 d e g]] c. cbn [fdom fsize sw_ sh_ minw maxw minh maxh]. intros A B -> -> -> ->. assert (N : forall v, -1 <= v -> neg1 v = v) by (intros v V; unfold neg1; destruct (v <? 0) eqn:?; lia).
  destruct c as [k|j|k|w|h]; cbn [fstep fdom fsize].
  - unfold with_gap. destruct (k <? 0) eqn:E; [exists k; split; [reflexivity|lia]|]. repeat split; reflexivity.
  - repeat split; reflexivity.
  - repeat split; reflexivity.
  - cbn [with_size_op]. unfold new_size. cbn [sw_ sh_ minw maxw minh maxh]. rewrite (N b B), (N (-1)) by lia. cbn [Z.eqb negb andb]. repeat split; reflexivity.
  - cbn [with_size_op]. unfold new_size. cbn [sw_ sh_ minw maxw minh maxh]. rewrite (N a A), (N (-1)) by lia. cbn [Z.eqb negb andb]. repeat split; reflexivity.
Qed.
(** Programs: a call touches at most the object it is called on; an object made is new; a call that panics changes nothing. *)
Definition on_box (c : call) : option nat := match c with PBox i _ | PRenderBox i => Some i | _ => None end.
Definition on_flex (c : call) : option nat := match c with PFlex j _ | PAdd j _ | PAddRaw j _ => Some j | _ => None end.
Lemma set_nth_same {A} (l : list A) i v k : nth_error l i = Some v -> nth_error (set_nth l i k) i = Some k.
Proof. intros E. rewrite nth_error_set_nth, Nat.eqb_refl. assert (i < length l)%nat by (apply nth_error_Some; congruence). replace (i <? length l)%nat with true by (symmetry; now apply Nat.ltb_lt). reflexivity. Qed.
Lemma set_nth_other {A} (l : list A) i j k : i <> j -> nth_error (set_nth l i k) j = nth_error l j.
Proof. intros E. rewrite nth_error_set_nth. replace (Nat.eqb i j) with false by (symmetry; now apply Nat.eqb_neq). reflexivity. Qed.
Theorem C187_calls_are_local : forall sw p c,
  let p' := fst (step sw p c) in
  (forall i b, nth_error (boxes p) i = Some b -> on_box c <> Some i -> nth_error (boxes p') i = Some b) /\
  (forall j x, nth_error (flexes p) j = Some x -> on_flex c <> Some j -> nth_error (flexes p') j = Some x) /\
  (snd (step sw p c) = APanic -> p' = p) /\
  (forall i, snd (step sw p c) = ABox i -> match c with PNewBox s => i = length (boxes p) /\ new_box s = nth_error (boxes p') i | _ => on_box c = Some i end) /\
  (forall j, snd (step sw p c) = AFlex j -> match c with PRow => j = length (flexes p) /\ nth_error (flexes p') j = Some (new_fobj true) | PColumn => j = length (flexes p) /\ nth_error (flexes p') j = Some (new_fobj false) | _ => on_flex c = Some j end).
Proof.
  intros sw p c. assert (APP : forall (A : Type) (l : list A) i v k, nth_error l i = Some v -> nth_error (l ++ [k]) i = Some v) by (intros A l i v k E; rewrite nth_error_app1; [exact E|apply nth_error_Some; congruence]).
  assert (LAST : forall (A : Type) (l : list A) k, nth_error (l ++ [k]) (length l) = Some k) by (intros; rewrite nth_error_app2 by lia; now rewrite Nat.sub_diag).
  destruct c as [s|i c|i| | |j c|j i|j s|j w h]; cbn [step on_box on_flex]; cbv zeta.
  - destruct (new_box s) as [b|] eqn:E; cbn [fst snd boxes flexes].
    + split; [intros; now apply APP|]. split; [auto|]. split; [discriminate|]. split; [|discriminate]. intros i Q. injection Q as <-. split; [reflexivity|]. rewrite LAST. reflexivity.
    + repeat split; auto; discriminate.
  - destruct (nth_error (boxes p) i) as [b|] eqn:E; [|cbn [fst snd]; repeat split; auto; discriminate]. destruct (bstep b (call_op c)) as [b'|]; cbn [fst snd boxes flexes]; [|repeat split; auto; discriminate].
    split; [intros k x K N; rewrite set_nth_other; congruence|]. split; [auto|]. split; [discriminate|]. split; [congruence|discriminate].
  - destruct (nth_error (boxes p) i) as [b|] eqn:E; cbn [fst snd boxes flexes]; [|repeat split; auto; discriminate]. split; [intros k x K N; rewrite set_nth_other; congruence|]. repeat split; auto; discriminate.
  - cbn [fst snd boxes flexes]. split; [auto|]. split; [intros; now apply APP|]. split; [discriminate|]. split; [discriminate|]. intros j Q. injection Q as <-. split; [reflexivity|apply LAST].
  - cbn [fst snd boxes flexes]. split; [auto|]. split; [intros; now apply APP|]. split; [discriminate|]. split; [discriminate|]. intros j Q. injection Q as <-. split; [reflexivity|apply LAST].
  - destruct (nth_error (flexes p) j) as [x|] eqn:E; [|cbn [fst snd]; repeat split; auto; discriminate]. destruct (fstep x c) as [x'|]; cbn [fst snd boxes flexes]; [|repeat split; auto; discriminate].
    split; [auto|]. split; [intros k y K N; rewrite set_nth_other; congruence|]. split; [discriminate|]. split; [discriminate|congruence].
  - destruct (nth_error (flexes p) j) as [x|] eqn:E; [|cbn [fst snd]; repeat split; auto; discriminate]. destruct (nth_error (boxes p) i) as [b|]; cbn [fst snd boxes flexes]; [|repeat split; auto; discriminate].
    split; [auto|]. split; [intros k y K N; rewrite set_nth_other; congruence|]. split; [discriminate|]. split; [discriminate|congruence].
  - destruct (nth_error (flexes p) j) as [x|] eqn:E; [|cbn [fst snd]; repeat split; auto; discriminate]. destruct (new_box s) as [b|]; cbn [fst snd boxes flexes]; [|repeat split; auto; discriminate].
    split; [auto|]. split; [intros k y K N; rewrite set_nth_other; congruence|]. split; [discriminate|]. split; [discriminate|congruence].
  - destruct (nth_error (flexes p) j) as [x|] eqn:E; [|cbn [fst snd]; repeat split; auto; discriminate]. destruct (flex_render sw (fdom x) w h) as [t|]; cbn [fst snd boxes flexes]; repeat split; auto; discriminate.
Qed.
(** A container keeps, in order, the boxes as they were when they were added: whatever is done afterwards to the boxes or to other
    containers, it draws the same. *)
Theorem C187_added_as_it_was : forall sw p j i x b, nth_error (flexes p) j = Some x -> nth_error (boxes p) i = Some b ->
  exists x', nth_error (flexes (fst (step sw p (PAdd j i)))) j = Some x' /\ items (fdom x') = items (fdom x) ++ [b] /\ horizontal (fdom x') = horizontal (fdom x) /\ fjust (fdom x') = fjust (fdom x) /\ falign (fdom x') = falign (fdom x) /\ fgap (fdom x') = fgap (fdom x) /\ fsize x' = fsize x.
Proof. intros sw p j i x b X B. cbn [step]. rewrite X, B. cbn [fst flexes]. exists (add_to x b). split; [eapply set_nth_same; eauto|]. repeat split; reflexivity. Qed.
Theorem C187_raw_is_a_new_box : forall sw p j x s b, nth_error (flexes p) j = Some x -> new_box s = Some b ->
  let p1 := fst (step sw p (PNewBox s)) in flexes (fst (step sw p (PAddRaw j s))) = flexes (fst (step sw p1 (PAdd j (length (boxes p))))).
Proof.
  intros sw p j x s b X B. cbv zeta. cbn [step]. rewrite X, B. cbn [fst flexes boxes]. rewrite X, nth_error_app2, Nat.sub_diag by lia. reflexivity.
Qed.
Theorem C187_drawn_as_added : forall sw cs p j w h x, nth_error (flexes p) j = Some x -> Forall (fun c => on_flex c <> Some j) cs ->
  nth_error (flexes (runp sw p cs)) j = Some x /\ snd (step sw (runp sw p cs) (PRenderFlex j w h)) = snd (step sw p (PRenderFlex j w h)).
Proof.
  intros sw cs. induction cs as [|c r IH]; intros p j w h x X F; [split; [exact X|reflexivity]|]. inversion F as [|? ? F1 F2]; subst. cbn [runp].
  destruct (C187_calls_are_local sw p c) as (_ & L & _). specialize (L j x X F1). destruct (IH (fst (step sw p c)) j w h x L F2) as [I1 I2]. split; [exact I1|]. rewrite I2. cbn [step]. rewrite X, L. destruct (flex_render sw (fdom x) w h); reflexivity.
Qed.
(** All boxes and containers of a program are reachable ones, so the theorems about [reach] speak of them. *)
Theorem C187_programs_reach : forall sw cs, let p := runp sw empty cs in Forall (reach sw) (boxes p) /\ Forall (fun x => Forall (reach sw) (items (fdom x)) /\ 0 <= fgap (fdom x)) (flexes p).
Proof.
  intros sw cs. cbv zeta. set (G := fun p : heap => Forall (reach sw) (boxes p) /\ Forall (fun x => Forall (reach sw) (items (fdom x)) /\ 0 <= fgap (fdom x)) (flexes p)).
  assert (SET : forall (A : Type) (Q : A -> Prop) (l : list A) i v, Forall Q l -> Q v -> Forall Q (set_nth l i v)).
  { intros A Q l. induction l as [|a l IH]; intros i v F V; [destruct i; auto|]. inversion F; subst. destruct i; cbn [set_nth]; constructor; auto. }
  assert (ST : forall p c, G p -> G (fst (step sw p c))).
  { intros p c [G1 G2].
    assert (NB : forall i b, nth_error (boxes p) i = Some b -> reach sw b) by (intros i b E; rewrite Forall_forall in G1; apply G1; eapply nth_error_In; eauto).
    assert (NF : forall i x, nth_error (flexes p) i = Some x -> Forall (reach sw) (items (fdom x)) /\ 0 <= fgap (fdom x)) by (intros i x E; rewrite Forall_forall in G2; apply G2; eapply nth_error_In; eauto).
    destruct c as [s|i c|i| | |j c|j i|j s|j w h]; cbn [step].
    - destruct (new_box s) as [b|] eqn:E; cbn [fst]; [|split; auto]. split; [|exact G2]. apply Forall_app. split; [exact G1|]. constructor; [eapply reach_new; eauto|constructor].
    - destruct (nth_error (boxes p) i) as [b|] eqn:E; [|split; auto]. destruct (bstep b (call_op c)) as [b'|] eqn:E2; [|split; auto]. split; [|exact G2]. apply SET; auto. eapply reach_step; eauto.
    - destruct (nth_error (boxes p) i) as [b|] eqn:E; [|split; auto]. split; [|exact G2]. apply SET; auto. apply reach_render. eauto.
    - split; [exact G1|]. apply Forall_app. split; [exact G2|]. constructor; [split; [constructor|cbn; lia]|constructor].
    - split; [exact G1|]. apply Forall_app. split; [exact G2|]. constructor; [split; [constructor|cbn; lia]|constructor].
    - destruct (nth_error (flexes p) j) as [x|] eqn:E; [|split; auto]. destruct (fstep x c) as [x'|] eqn:E2; [|split; auto]. split; [exact G1|]. apply SET; auto. destruct (NF j x E) as [I1 I2].
      destruct c as [g|j'|a|w|h]; cbn [fstep] in E2.
      + unfold with_gap in E2. destruct (g <? 0) eqn:Eg; [discriminate|]. apply some_inj in E2. subst x'. cbn [fdom items fgap]. split; [exact I1|lia].
      + apply some_inj in E2. subst x'. split; auto.
      + apply some_inj in E2. subst x'. split; auto.
      + destruct (with_size_op (fsize x) (SWidth w)); [|discriminate]. apply some_inj in E2. subst x'. split; auto.
      + destruct (with_size_op (fsize x) (SHeight h)); [|discriminate]. apply some_inj in E2. subst x'. split; auto.
    - destruct (nth_error (flexes p) j) as [x|] eqn:E; [|split; auto]. destruct (nth_error (boxes p) i) as [b|] eqn:E2; [|split; auto]. split; [exact G1|]. apply SET; auto. destruct (NF j x E) as [I1 I2]. split; [|exact I2]. apply Forall_app. split; [exact I1|]. constructor; [eauto|constructor].
    - destruct (nth_error (flexes p) j) as [x|] eqn:E; [|split; auto]. destruct (new_box s) as [b|] eqn:E2; [|split; auto]. split; [exact G1|]. apply SET; auto. destruct (NF j x E) as [I1 I2]. split; [|exact I2]. apply Forall_app. split; [exact I1|]. constructor; [eapply reach_new; eauto|constructor].
    - destruct (nth_error (flexes p) j) as [x|]; [|split; auto]. destruct (flex_render sw (fdom x) w h); split; auto. }
  assert (RN : forall cs p, G p -> G (runp sw p cs)) by (intros cs0; induction cs0 as [|c r IH]; intros p Gp; [exact Gp|cbn [runp]; apply IH; apply ST; exact Gp]).
  apply (RN cs empty). split; constructor.
Qed.
Definition alen (l : list Z) : Z := Z.of_nat (length l).
Example C187_ex : let p := runp alen empty [PNewBox [72; 105]; PRow; PAdd 0 0; PBox 0 CBorder; PAdd 0 0; PBox 0 (CSize (SMaxW 3)); PBox 0 (CSize (SMinW 5))] in
  snd (step alen p (PRenderFlex 0 8 3)) = AText ([72; 105; 9484; 9472; 9472; 9472; 9472; 9488] ++ [10; 32; 32; 9474; 32; 72; 105; 32; 9474] ++ [10; 32; 32; 9492; 9472; 9472; 9472; 9472; 9496]) /\
  snd (step alen p (PBox 0 (CSize (SMinW 5)))) = APanic.
Proof. split; reflexivity. Qed.

(* ---------- C188: setters do not return new instances ---------- *)
(** Every setter of a box or a container that does not panic gives back the very object it was called on, changed: after
    [a := base.PaddingAll(n)], [base] has that padding too. *)
Theorem C188_same_object_refuted : forall sw p i b c b', nth_error (boxes p) i = Some b -> bstep b (call_op c) = Some b' ->
  snd (step sw p (PBox i c)) = ABox i /\ nth_error (boxes (fst (step sw p (PBox i c)))) i = Some b'.
Proof. intros sw p i b c b' E S. cbn [step]. rewrite E, S. cbn [fst snd boxes]. split; [reflexivity|]. eapply set_nth_same; eauto. Qed.
Theorem C188_containers_too_refuted : forall sw p j x c x', nth_error (flexes p) j = Some x -> fstep x c = Some x' ->
  snd (step sw p (PFlex j c)) = AFlex j /\ nth_error (flexes (fst (step sw p (PFlex j c)))) j = Some x'.
Proof. intros sw p i b c b' E S. cbn [step]. rewrite E, S. cbn [fst snd flexes]. split; [reflexivity|]. eapply set_nth_same; eauto. Qed.
(** so two boxes derived from one are one box with both changes. *)
Example C188_case : let p := runp alen empty [PNewBox [97]; PBox 0 CBorder; PBox 0 (CPaddingAll 1)] in
  exists b, boxes p = [b] /\ border b = true /\ padding b = Sp 1 1 1 1.
Proof. cbv zeta. eexists. split; [reflexivity|]. split; reflexivity. Qed.

(* ---------- C189: aligning one direction resets the other ---------- *)
(** After AlignRight (or any horizontal alignment), AlignMiddle, AlignTop and AlignBottom put the box to the left; after AlignMiddle
    (or any vertical one) AlignRight puts it to the top; AlignLeft and AlignTop reset both and AlignCenter sets both. *)
Theorem C189_other_direction_reset_refuted : forall b c h v, In c [CAlignTop; CAlignMiddle; CAlignBottom; CAlignLeft; CAlignRight] ->
  exists b1 b2, bstep b (call_op (CAlign h v)) = Some b1 /\ bstep b1 (call_op c) = Some b2 /\
    (In c [CAlignTop; CAlignMiddle; CAlignBottom] -> bhal b2 = HLeft) /\ (In c [CAlignLeft; CAlignRight] -> bval b2 = VTop).
Proof.
  intros b c h v I. eexists. cbn [call_op bstep]. destruct I as [<-|[<-|[<-|[<-|[<-|[]]]]]]; eexists; (split; [reflexivity|]; split; [reflexivity|]); cbn [bhal bval]; split; intros Q; auto; exfalso; cbn [In] in Q; intuition discriminate.
Qed.
(** What holds: the direction the call is named after, and both directions with Align. *)
Theorem C189_named_direction_partial : forall sw b c b', reach sw b -> bstep b (call_op c) = Some b' ->
  (c = CAlignLeft -> bhal b' = HLeft) /\ (c = CAlignRight -> bhal b' = HRight) /\ (c = CAlignCenter -> bhal b' = HCenter /\ bval b' = VMiddle) /\
  (c = CAlignTop -> bval b' = VTop) /\ (c = CAlignMiddle -> bval b' = VMiddle) /\ (c = CAlignBottom -> bval b' = VBottom) /\ (forall h v, c = CAlign h v -> bhal b' = h /\ bval b' = v).
Proof.
  intros sw b c b' R E. pose proof (C187_setters sw b c R) as S. rewrite E in S. destruct S as (_ & _ & _ & _ & _ & _ & _ & _ & _ & _ & S).
  assert (S1 := f_equal fst S). assert (S2 := f_equal snd S). cbn [fst snd] in S1, S2.
  repeat split; intros; subst c; auto.
Qed.
(* ---------- C190: the container's own size ---------- *)
(** Width and Height of a container have no influence on what it draws. *)
Theorem C190_own_size_ignored_refuted : forall sw p j x c w h w' h', nth_error (flexes p) j = Some x -> (c = FWidth w' \/ c = FHeight h') ->
  snd (step sw (fst (step sw p (PFlex j c))) (PRenderFlex j w h)) = snd (step sw p (PRenderFlex j w h)).
Proof.
  intros sw p j x c w h w' h' X C. cbn [step]. rewrite X. assert (E : forall x', fstep x c = Some x' -> fdom x' = fdom x).
  { intros x'. destruct C as [-> | ->]; cbn [fstep]; (destruct (with_size_op _ _); [|discriminate]); intros E; apply some_inj in E; now subst x'. }
  destruct (fstep x c) as [x'|] eqn:F; cbn [fst]; [|rewrite X; destruct (flex_render sw (fdom x) w h); reflexivity].
  cbn [flexes]. rewrite (set_nth_same _ _ _ x' X). rewrite (E x' eq_refl). destruct (flex_render sw (fdom x) w h); reflexivity.
Qed.
(* ---------- C191: wide characters ---------- *)
Lemma split_one l : Forall (fun x => x <> 10) l -> split_nl l = [l].
Proof. intros F. assert (N : ~ In 10 l) by (intros I; rewrite Forall_forall in F; now apply (F 10)). rewrite <- (app_nil_r l) at 1. rewrite split_nl_app by exact N. cbn [split_nl]. now rewrite app_nil_r. Qed.
(** In a container each character takes one cell, whatever its width: a row filled with characters of width two is drawn in full and
    is twice as wide as the container. *)
Theorem C191_wide_row_refuted : forall sw c w, c <> 10 -> 0 < w -> (forall n, sw (repeat c n) = 2 * Z.of_nat n) ->
  exists b, new_box (repeat c (Z.to_nat w)) = Some b /\ flex_render sw (add_item (new_flex true) b) w 1 = Some (repeat c (Z.to_nat w)) /\ sw (repeat c (Z.to_nat w)) = 2 * w.
Proof.
  intros sw c w N W S. assert (NE : exists k, Z.to_nat w = Datatypes.S k) by (exists (Z.to_nat w - 1)%nat; lia). destruct NE as (k & K).
  assert (NL : Forall (fun x => x <> 10) (repeat c (Z.to_nat w))) by (apply Forall_forall; intros x I; apply repeat_spec in I; now subst).
  exists (Box (repeat c (Z.to_nat w)) (Sp 0 0 0 0) (Sp 0 0 0 0) false size_any HLeft VTop). split; [rewrite K; reflexivity|]. split; [|rewrite S; lia].
  set (b := Box _ _ _ _ _ _ _). assert (RB : render b = repeat c (Z.to_nat w)).
  { unfold render, render_lines. subst b. cbn [content padding margin border top right bottom left]. rewrite (split_one _ NL). cbn [map Z.to_nat repeat app horiz left right]. unfold rep. cbn [Z.to_nat repeat app Z.add]. cbn [join_nl]. now rewrite !app_nil_r. }
  unfold flex_render, flex_grid. replace ((1 <? 0) || (0 <? 1) && (w <? 0)) with false by lia.
  assert (FL : exists y, flex_layout sw (add_item (new_flex true) b) w 1 = [(b, (0, y))] /\ 0 <= y < 1).
  { unfold flex_layout. cbn [add_item new_flex items horizontal fjust falign fgap app map combine main_positions place]. destruct (measure sw b) as [mw mh]. cbn [fst snd]. exists 0. split; [reflexivity|lia]. }
  destruct FL as (y & FL & Y). assert (y = 0) by lia. subst y. rewrite FL. cbn [fold_left]. rewrite RB, (split_one _ NL). cbn [Z.to_nat repeat]. cbn [paint_lines nth_error set_nth Pos.to_nat Pos.iter_op].
  replace (0 <? Z.to_nat w)%nat with true by (symmetry; apply Nat.ltb_lt; lia). change (Pos.to_nat 1) with 1%nat. cbn [repeat nth_error]. cbn [set_nth join_nl].
  f_equal. unfold paint_row. cbn [firstn app]. rewrite Nat.sub_0_r, firstn_all2 by (rewrite repeat_length; lia). rewrite repeat_length, Nat.add_0_l.
  rewrite skipn_all2; [apply app_nil_r|]. unfold rep. rewrite repeat_length. lia.
Qed.
Definition wide (l : list Z) : Z := 2 * Z.of_nat (length l).
Example C191_case : exists b, new_box (repeat 26085 3) = Some b /\ flex_render wide (add_item (new_flex true) b) 3 1 = Some [26085; 26085; 26085].
Proof. eexists. split; reflexivity. Qed.

Print Assumptions C187_setters. Print Assumptions C187_new. Print Assumptions C187_container_setters. Print Assumptions C187_calls_are_local.
Print Assumptions C187_added_as_it_was. Print Assumptions C187_raw_is_a_new_box. Print Assumptions C187_drawn_as_added. Print Assumptions C187_programs_reach.
Print Assumptions C188_same_object_refuted. Print Assumptions C188_containers_too_refuted. Print Assumptions C189_other_direction_reset_refuted. Print Assumptions C189_named_direction_partial.
Print Assumptions C190_own_size_ignored_refuted. Print Assumptions C191_wide_row_refuted.
