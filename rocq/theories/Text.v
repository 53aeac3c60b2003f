(** Splitting and joining text at newlines (strings.Split(s, "\n"), strings.Join(ls, "\n")), shared by the models of layout and style. *)
From Verif Require Import Prelude Utf8.

Fixpoint split_nl (s : list Z) : list (list Z) :=
  match s with
  | [] => [[]]
  | c :: t => if c =? 10 then [] :: split_nl t
              else match split_nl t with h :: r => (c :: h) :: r | [] => [[c]] end
  end.
Fixpoint join_nl (ls : list (list Z)) : list Z :=
  match ls with [] => [] | [l] => l | l :: r => l ++ 10 :: join_nl r end.
(** strings.Repeat of one rune; the bound is never negative where the code calls it (else Go panics). *)
Definition rep (c n : Z) : list Z := repeat c (Z.to_nat n).
(** Go's len of the UTF-8 string. *)
Definition blen (s : list Z) : Z := Z.of_nat (length (enc s)).

Lemma split_nl_ne s : split_nl s <> [].
Proof. induction s as [|c s IH]; cbn; [discriminate|]. destruct (c =? 10); [discriminate|]. destruct (split_nl s); discriminate. Qed.
Lemma split_nl_app l r : ~ In 10 l -> split_nl (l ++ r) = match split_nl r with x :: xs => (l ++ x) :: xs | [] => [l] end.
Proof.
  induction l as [|c l IH]; intros Hn; cbn [app split_nl].
  - destruct (split_nl r) eqn:E; [exfalso; eapply split_nl_ne; eauto|reflexivity].
  - cbn in Hn. replace (c =? 10) with false by lia. rewrite IH by tauto.
    destruct (split_nl r) eqn:E; [exfalso; eapply split_nl_ne; eauto|reflexivity].
Qed.
Lemma split_join ls : ls <> [] -> Forall (fun l => ~ In 10 l) ls -> split_nl (join_nl ls) = ls.
Proof.
  induction ls as [|l ls IH]; intros Hne Hf; [congruence|]. inversion_clear Hf as [|? ? Hl Hls].
  destruct ls as [|l2 ls].
  - cbn [join_nl]. rewrite <- (app_nil_r l) at 1. rewrite split_nl_app by auto. cbn. rewrite app_nil_r. reflexivity.
  - change (join_nl (l :: l2 :: ls)) with (l ++ 10 :: join_nl (l2 :: ls)).
    rewrite split_nl_app by auto. cbn [split_nl Z.eqb Pos.eqb]. rewrite app_nil_r. f_equal.
    apply IH; [discriminate|auto].
Qed.
Lemma split_nl_lines s : Forall (fun l => ~ In 10 l) (split_nl s).
Proof.
  induction s as [|c s IH]; cbn [split_nl]; [repeat constructor; auto|]. destruct (c =? 10) eqn:E; [constructor; auto|].
  destruct (split_nl s) as [|h r]; inversion_clear IH; constructor; auto; cbn; intuition lia.
Qed.
Lemma join_split s : join_nl (split_nl s) = s.
Proof.
  induction s as [|c s IH]; cbn [split_nl]; auto. pose proof (split_nl_ne s) as N. destruct (c =? 10) eqn:E.
  - destruct (split_nl s) as [|h r] eqn:Q; [congruence|]. change (10 :: join_nl (h :: r) = c :: s). rewrite IH. f_equal. lia.
  - destruct (split_nl s) as [|h r] eqn:Q; [congruence|]. destruct r; cbn [join_nl] in *; rewrite <- IH; reflexivity.
Qed.
Lemma split_nl_chars s (P : Z -> Prop) : Forall P s -> Forall (Forall P) (split_nl s).
Proof.
  induction s as [|c s IH]; intros H; cbn [split_nl]; [repeat constructor|]. inversion_clear H as [|? ? H1 H2]. specialize (IH H2).
  destruct (c =? 10); [constructor; auto|]. destruct (split_nl s) as [|h r]; inversion_clear IH; constructor; auto.
Qed.
Lemma enc_len_ascii s : Forall (fun c => 0 <= c < 128) s -> length (enc s) = length s.
Proof.
  induction s as [|c s IH]; intros H; auto. inversion_clear H as [|? ? H1 H2]. unfold enc. cbn [flat_map]. fold (enc s). rewrite app_length, IH by auto.
  unfold enc_rune. replace (c <? 128) with true by lia. reflexivity.
Qed.
Lemma blen_ascii s : Forall (fun c => 0 <= c < 128) s -> blen s = Z.of_nat (length s).
Proof. intros H. unfold blen. rewrite enc_len_ascii; auto. Qed.
Lemma rep_length c n : length (rep c n) = Z.to_nat n.
Proof. apply repeat_length. Qed.
Lemma rep_no c d n : c <> d -> ~ In d (rep c n).
Proof. intros H I. apply repeat_spec in I. congruence. Qed.
Lemma nth_error_firstn {A} (l : list A) : forall n i, nth_error (firstn n l) i = if (i <? n)%nat then nth_error l i else None.
Proof.
  induction l as [|a l IH]; intros n i; [rewrite firstn_nil; destruct i, (_ <? n)%nat; reflexivity|]. destruct n as [|n]; [destruct i; reflexivity|]. destruct i as [|i]; [reflexivity|]. cbn [firstn nth_error]. rewrite IH. reflexivity.
Qed.
Lemma nth_error_skipn {A} (l : list A) : forall n i, nth_error (skipn n l) i = nth_error l (n + i).
Proof. induction l as [|a l IH]; intros n i; [rewrite skipn_nil; destruct i, n; reflexivity|]. destruct n; [reflexivity|]. cbn [skipn Nat.add nth_error]. apply IH. Qed.
Lemma nth_error_set_nth {A} (l : list A) : forall i j v, nth_error (set_nth l i v) j = if (Nat.eqb i j && (i <? length l)%nat)%bool then Some v else nth_error l j.
Proof.
  induction l as [|h t IH]; intros i j v; cbn [set_nth].
  - rewrite andb_false_r. reflexivity.
  - destruct i, j; cbn [nth_error Nat.eqb length]; try reflexivity. rewrite IH. reflexivity.
Qed.
