(** Common imports, tactics, and decimal formatting (Go's fmt "%d"). *)
From Coq Require Export List ZArith Lia Bool Arith Permutation Sorted.
From Coq Require Export ZifyBool ZifyNat.
Export ListNotations.

Ltac Zify.zify_post_hook ::= Z.div_mod_to_equations.

(** A character of Go text is a rune (code point), a byte is 0..255; both are [Z]. *)
Notation rune := Z (only parsing).
Notation byte := Z (only parsing).
Notation runes := (list Z) (only parsing).

Open Scope Z_scope.

(** Digits of a non-negative number, most significant first, as ASCII codes.
    [fuel] bounds the number of digits. *)
Fixpoint digits (fuel : nat) (n : Z) (acc : list Z) : list Z :=
  match fuel with
  | O => acc
  | S f =>
      let acc' := (48 + n mod 10) :: acc in
      if n <? 10 then acc' else digits f (n / 10) acc'
  end.

(** fmt.Sprintf("%d", n). *)
Definition dec (n : Z) : list Z :=
  if n <? 0 then 45 :: digits (S (Z.to_nat (Z.log2 (- n)))) (- n) []
  else digits (S (Z.to_nat (Z.log2 n))) n [].

Definition is_digit (c : Z) : bool := (48 <=? c) && (c <=? 57).

(** Value of a digit string (the usual left-to-right accumulation). *)
Definition undec_acc (v : Z) (l : list Z) : Z :=
  fold_left (fun a c => a * 10 + (c - 48)) l v.

Lemma digits_spec : forall fuel n acc,
  0 <= n -> n < 10 ^ Z.of_nat fuel -> (fuel > 0)%nat ->
  exists d, digits fuel n acc = d ++ acc /\ d <> [] /\
    forallb is_digit d = true /\ (forall v, undec_acc v d = v * 10 ^ Z.of_nat (length d) + n).
Proof.
  induction fuel as [|f IH]; intros n acc Hn Hlt Hf; [lia|].
  cbn [digits]. destruct (n <? 10) eqn:E.
  - exists [48 + n mod 10]. split; [reflexivity|]. split; [discriminate|].
    split.
    + cbn [forallb]. unfold is_digit. lia.
    + intros v. unfold undec_acc. cbn [fold_left length]. lia.
  - destruct f as [|f'].
    { cbn in Hlt. lia. }
    destruct (IH (n / 10) ((48 + n mod 10) :: acc)) as (d & Hd & Hne & Hdig & Hval).
    + lia.
    + rewrite Nat2Z.inj_succ, Z.pow_succ_r in Hlt by lia. lia.
    + lia.
    + exists (d ++ [48 + n mod 10]). rewrite Hd, <- app_assoc. split; [reflexivity|].
      split; [destruct d; discriminate|]. split.
      * rewrite forallb_app, Hdig. cbn [forallb]. unfold is_digit. lia.
      * intros v. unfold undec_acc in *. rewrite fold_left_app, Hval. cbn [fold_left].
        rewrite app_length. cbn [length]. rewrite Nat.add_1_r, Nat2Z.inj_succ, Z.pow_succ_r by lia.
        lia.
Qed.

Lemma log2_pow10 : forall n, 0 <= n -> n < 10 ^ Z.of_nat (S (Z.to_nat (Z.log2 n))).
Proof.
  intros n Hn. destruct (Z.eq_dec n 0) as [->|Hne]; [cbn; lia|].
  pose proof (Z.log2_spec n ltac:(lia)) as [_ H].
  pose proof (Z.log2_nonneg n).
  replace (Z.of_nat (S (Z.to_nat (Z.log2 n)))) with (Z.succ (Z.log2 n)) by lia.
  eapply Z.lt_le_trans; [exact H|]. apply Z.pow_le_mono_l; lia.
Qed.

(** Decimal formatting of a non-negative number is a non-empty digit string whose value is it. *)
Lemma dec_spec : forall n, 0 <= n ->
  dec n <> [] /\ forallb is_digit (dec n) = true /\
  forall v, undec_acc v (dec n) = v * 10 ^ Z.of_nat (length (dec n)) + n.
Proof.
  intros n Hn. unfold dec. destruct (n <? 0) eqn:E; [lia|].
  destruct (digits_spec (S (Z.to_nat (Z.log2 n))) n []) as (d & Hd & Hne & Hdig & Hv).
  - lia.
  - apply log2_pow10; lia.
  - lia.
  - rewrite Hd, app_nil_r. auto.
Qed.

Lemma dec_undec : forall n, 0 <= n -> undec_acc 0 (dec n) = n.
Proof. intros n Hn. destruct (dec_spec n Hn) as (_ & _ & H). rewrite H. lia. Qed.

Lemma dec_inj : forall a b, 0 <= a -> 0 <= b -> dec a = dec b -> a = b.
Proof. intros a b Ha Hb H. rewrite <- (dec_undec a Ha), <- (dec_undec b Hb), H. reflexivity. Qed.

(** Boolean helpers. *)
Definition opt_eqb {A} (eqb : A -> A -> bool) (a b : option A) : bool :=
  match a, b with
  | None, None => true
  | Some x, Some y => eqb x y
  | _, _ => false
  end.

Fixpoint list_eqb (a b : list Z) : bool :=
  match a, b with
  | [], [] => true
  | x :: a', y :: b' => (x =? y) && list_eqb a' b'
  | _, _ => false
  end.

Lemma list_eqb_eq : forall a b, list_eqb a b = true <-> a = b.
Proof.
  induction a as [|x a IH]; destruct b as [|y b]; cbn; split; intros H; try discriminate; auto.
  - apply andb_prop in H as [H1 H2]. apply IH in H2. f_equal; [lia|assumption].
  - injection H as -> ->. rewrite Z.eqb_refl. cbn. apply IH. reflexivity.
Qed.

Lemma list_eqb_refl : forall a, list_eqb a a = true.
Proof. intros a. apply list_eqb_eq. reflexivity. Qed.

Lemma list_eqb_neq : forall a b, list_eqb a b = false <-> a <> b.
Proof.
  intros a b. split.
  - intros H Heq. apply list_eqb_eq in Heq. congruence.
  - intros H. destruct (list_eqb a b) eqn:E; auto. apply list_eqb_eq in E. contradiction.
Qed.

(** Clamp used all over the code base. *)
Definition clampZ (lo hi v : Z) : Z := Z.max lo (Z.min hi v).

(** Replace the element at an index (Go: s[i] = v on an in-range i). *)
Fixpoint set_nth {A} (l : list A) (i : nat) (v : A) : list A :=
  match l, i with
  | [], _ => []
  | _ :: t, O => v :: t
  | h :: t, S j => h :: set_nth t j v
  end.

Lemma set_nth_length {A} : forall (l : list A) i v, length (set_nth l i v) = length l.
Proof. induction l; destruct i; cbn; intros; auto. Qed.

Lemma nth_set_nth {A} : forall (l : list A) i j v d,
  nth j (set_nth l i v) d = if (Nat.eqb i j && Nat.ltb i (length l))%bool then v else nth j l d.
Proof.
  induction l as [|h t IH]; intros i j v d; cbn [set_nth].
  - destruct i; destruct j; cbn; rewrite ?andb_false_r; reflexivity.
  - destruct i, j; cbn; try reflexivity. rewrite IH.
    reflexivity.
Qed.

Lemma some_inj {A} (a b : A) : Some a = Some b -> a = b.
Proof. congruence. Qed.
