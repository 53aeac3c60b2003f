From Verif Require Import Prelude TaModel TaSpec.

(* ---------- buffer operations on a split buffer ---------- *)

Lemma len_app_lt {A} (P : list A) x Q : (length P < length (P ++ x :: Q))%nat.
Proof. rewrite app_length. cbn. lia. Qed.
Lemma ltb_in {A} (P : list A) x Q : (length (P ++ x :: Q) <=? length P)%nat = false.
Proof. apply Nat.leb_gt. apply len_app_lt. Qed.
Lemma nth_at {A} (P : list A) x Q d : nth (length P) (P ++ x :: Q) d = x.
Proof. induction P; cbn; auto. Qed.
Lemma set_at {A} (P : list A) x Q v : set_nth (P ++ x :: Q) (length P) v = P ++ v :: Q.
Proof. induction P; cbn; auto. f_equal; auto. Qed.
Lemma firstn_at {A} (a b : list A) : firstn (length a) (a ++ b) = a.
Proof. induction a; cbn; auto. f_equal; auto. Qed.
Lemma skipn_at {A} (a b : list A) : skipn (length a) (a ++ b) = b.
Proof. induction a; cbn; auto. Qed.
Lemma skipn_S_at {A} (a : list A) x b : skipn (S (length a)) (a ++ x :: b) = b.
Proof. induction a; cbn; auto. Qed.
Lemma firstn_S_at {A} (a : list A) x b : firstn (S (length a)) (a ++ x :: b) = a ++ [x].
Proof. induction a as [|y a IH]; [reflexivity|]. cbn [length app firstn]. f_equal. exact IH. Qed.
Lemma nltb_len {A} (a b : list A) : (length (a ++ b) <? length a)%nat = false.
Proof. apply Nat.ltb_ge. rewrite app_length. lia. Qed.

Lemma insert_char_at P l1 l2 Q ch :
  insert_char (P ++ (l1 ++ l2) :: Q) (length P) (length l1) ch = P ++ (l1 ++ ch :: l2) :: Q.
Proof. unfold insert_char, get_line. rewrite ltb_in, nth_at, nltb_len, firstn_at, skipn_at, set_at. reflexivity. Qed.
Lemma delete_char_at P l1 x l2 Q :
  delete_char (P ++ (l1 ++ x :: l2) :: Q) (length P) (length l1) = P ++ (l1 ++ l2) :: Q.
Proof. unfold delete_char, get_line. rewrite ltb_in, nth_at, ltb_in, firstn_at, skipn_S_at, set_at. reflexivity. Qed.
Lemma insert_newline_at P l1 l2 Q :
  insert_newline (P ++ (l1 ++ l2) :: Q) (length P) (length l1) = P ++ l1 :: l2 :: Q.
Proof.
  unfold insert_newline, get_line. rewrite ltb_in, nth_at, nltb_len, firstn_at, skipn_at, set_at, firstn_S_at, skipn_S_at.
  rewrite <- app_assoc. reflexivity.
Qed.
Lemma set_line_at P l Q v : set_line (P ++ l :: Q) (length P) v = P ++ v :: Q.
Proof. unfold set_line. now rewrite ltb_in, set_at. Qed.
Lemma delete_line_at P l Q : (length (P ++ Q) > 0)%nat -> delete_line (P ++ l :: Q) (length P) = P ++ Q.
Proof.
  intros H. unfold delete_line. rewrite ltb_in. replace (length (P ++ l :: Q) =? 1)%nat with false.
  - now rewrite firstn_at, skipn_S_at.
  - symmetry. apply Nat.eqb_neq. rewrite app_length in *. cbn. lia.
Qed.
Lemma delete_to_line_end_at P l1 x l2 Q :
  delete_to_line_end (P ++ (l1 ++ x :: l2) :: Q) (length P) (length l1) = P ++ l1 :: Q.
Proof. unfold delete_to_line_end, get_line. rewrite ltb_in, nth_at, ltb_in, firstn_at, set_at. reflexivity. Qed.
Lemma iter_succ_r {A} n (f : A -> A) x : Nat.iter (S n) f x = Nat.iter n f (f x).
Proof. induction n; [reflexivity|]. change (Nat.iter (S (S n)) f x) with (f (Nat.iter (S n) f x)). rewrite IHn. reflexivity. Qed.
Lemma delete_n_at P l1 d l2 Q : delete_n (P ++ (l1 ++ d ++ l2) :: Q) (length P) (length l1) (length d) = P ++ (l1 ++ l2) :: Q.
Proof.
  unfold delete_n. induction d as [|x d IH]; [reflexivity|].
  change (length (x :: d)) with (S (length d)). rewrite iter_succ_r. cbn [app].
  rewrite delete_char_at. exact IH.
Qed.

Definition bef (P : buffer) (l1 : list Z) : list Z := flat_map (fun l => l ++ [nl]) P ++ l1.
Definition aft (l2 : list Z) (Q : buffer) : list Z := l2 ++ flat_map (fun l => nl :: l) Q.

Lemma insert_text_at text : forall P l1 l2 Q,
  exists P' l1', insert_text (P ++ (l1 ++ l2) :: Q) (length P) (length l1) text
                 = (P' ++ (l1' ++ l2) :: Q, length P', length l1') /\
    bef P' l1' = bef P l1 ++ text /\
    (Forall (fun l => ~ In nl l) P -> ~ In nl l1 -> Forall (fun l => ~ In nl l) P' /\ ~ In nl l1').
Proof.
  induction text as [|ch text IH]; intros P l1 l2 Q; cbn [insert_text].
  - exists P, l1. rewrite app_nil_r. auto.
  - destruct (ch =? nl) eqn:E.
    + apply Z.eqb_eq in E. subst ch. rewrite insert_newline_at.
      replace (P ++ l1 :: l2 :: Q) with ((P ++ [l1]) ++ ([] ++ l2) :: Q) by (rewrite <- app_assoc; reflexivity).
      replace (S (length P)) with (length (P ++ [l1])) by (rewrite app_length; cbn; lia).
      destruct (IH (P ++ [l1]) [] l2 Q) as (P' & l1' & A & B & C).
      exists P', l1'. cbn [length] in A. rewrite A. split; auto. split.
      * rewrite B. unfold bef. rewrite flat_map_app. cbn. rewrite ?app_nil_r, <- !app_assoc. reflexivity.
      * intros HP H1. apply C; [apply Forall_app; split; auto|intros []].
    + rewrite insert_char_at. replace (l1 ++ ch :: l2) with ((l1 ++ [ch]) ++ l2) by (rewrite <- app_assoc; reflexivity).
      replace (S (length l1)) with (length (l1 ++ [ch])) by (rewrite app_length; cbn; lia).
      destruct (IH P (l1 ++ [ch]) l2 Q) as (P' & l1' & A & B & C).
      exists P', l1'. rewrite A. split; auto. split.
      * rewrite B. unfold bef. rewrite <- !app_assoc. reflexivity.
      * intros HP H1. apply C; auto. intros H. apply in_app_or in H. destruct H as [H|[H|[]]]; auto.
        subst ch. rewrite Z.eqb_refl in E. discriminate.
Qed.

(* ---------- states split at the cursor ---------- *)

Definition at_ (t : ta) (P : buffer) (l1 l2 : list Z) (Q : buffer) : Prop :=
  buf t = P ++ (l1 ++ l2) :: Q /\ row t = length P /\ col t = length l1.
Definition ring_ok (k : ring) : Prop := (1 <= rmax k)%nat /\ (length (items k) <= rmax k)%nat.
Definition clean (P : buffer) (l1 l2 : list Z) (Q : buffer) : Prop :=
  Forall (fun l => ~ In nl l) P /\ ~ In nl l1 /\ ~ In nl l2 /\ Forall (fun l => ~ In nl l) Q.

Lemma not_in_app (l1 l2 : list Z) : ~ In nl (l1 ++ l2) <-> ~ In nl l1 /\ ~ In nl l2.
Proof. rewrite in_app_iff. tauto. Qed.
Lemma clean_buf P l1 l2 Q : clean P l1 l2 Q <-> Forall (fun l => ~ In nl l) (P ++ (l1 ++ l2) :: Q).
Proof. unfold clean. rewrite Forall_app, Forall_cons_iff, not_in_app. tauto. Qed.

Lemma valid_at t : valid t -> exists P l1 l2 Q, at_ t P l1 l2 Q.
Proof.
  intros [Hr Hc _]. destruct (nth_split (buf t) [] Hr) as (P & Q & E & EP).
  set (l := nth (row t) (buf t) []) in *.
  exists P, (firstn (col t) l), (skipn (col t) l), Q.
  unfold at_. rewrite firstn_skipn. split; auto. split; auto. rewrite firstn_length. lia.
Qed.
Lemma tidy_at t P l1 l2 Q : at_ t P l1 l2 Q -> (tidy t <-> clean P l1 l2 Q).
Proof. intros (E & _). unfold tidy. rewrite E. symmetry. apply clean_buf. Qed.
Lemma at_valid t P l1 l2 Q : at_ t P l1 l2 Q -> ring_ok (kring t) -> valid t.
Proof.
  intros (E & R & C) Hk. constructor; auto.
  - rewrite E, R. apply len_app_lt.
  - rewrite E, R, nth_at, C, app_length. lia.
Qed.
Lemma before_at t P l1 l2 Q : at_ t P l1 l2 Q -> before t = bef P l1.
Proof. intros (E & R & C). unfold before, bef. rewrite E, R, C, firstn_at, nth_at, firstn_at. reflexivity. Qed.
Lemma after_at t P l1 l2 Q : at_ t P l1 l2 Q -> after t = aft l2 Q.
Proof. intros (E & R & C). unfold after, aft. rewrite E, R, C, nth_at, skipn_at, skipn_S_at. reflexivity. Qed.
Lemma cur_line_at t P l1 l2 Q : at_ t P l1 l2 Q -> cur_line t = l1 ++ l2.
Proof. intros (E & R & C). unfold cur_line, get_line. now rewrite E, R, nth_at. Qed.

Lemma join_cons l Q : join_lines (l :: Q) = l ++ flat_map (fun l => nl :: l) Q.
Proof. revert l. induction Q as [|x Q IH]; intros l; [cbn; now rewrite app_nil_r|].
  change (join_lines (l :: x :: Q)) with (l ++ nl :: join_lines (x :: Q)). rewrite IH. reflexivity. Qed.
Lemma join_at P l Q : join_lines (P ++ l :: Q) = flat_map (fun l => l ++ [nl]) P ++ l ++ flat_map (fun l => nl :: l) Q.
Proof.
  induction P as [|x P IH]; [apply join_cons|]. cbn [app flat_map].
  assert (E : join_lines (x :: P ++ l :: Q) = x ++ nl :: join_lines (P ++ l :: Q)) by (destruct P; reflexivity).
  rewrite E, IH, <- !app_assoc. reflexivity.
Qed.
Lemma value_split t : valid t -> value t = before t ++ after t.
Proof.
  intros H. destruct (valid_at t H) as (P & l1 & l2 & Q & A). rewrite (before_at _ _ _ _ _ A), (after_at _ _ _ _ _ A).
  destruct A as (E & _). unfold value. rewrite E, join_at. unfold bef, aft. now rewrite <- !app_assoc.
Qed.

Lemma at_cursor t P l1 l2 Q : buf t = P ++ (l1 ++ l2) :: Q ->
  at_ (with_cursor t (length P) (length l1)) P l1 l2 Q.
Proof. intros E. repeat split; auto. Qed.

(* ---------- each operation ---------- *)

Definition same_env (t t' : ta) : Prop := kring t' = kring t /\ conf t' = conf t.

Lemma type_char_at t P l1 l2 Q ch : at_ t P l1 l2 Q -> read_only (conf t) = false ->
  at_ (type_char t ch) P (l1 ++ [ch]) l2 Q /\ same_env t (type_char t ch).
Proof.
  intros (E & R & C) Hro. unfold type_char. rewrite Hro, E, R, C, insert_char_at. split; [|split; reflexivity].
  replace (S (length l1)) with (length (l1 ++ [ch])) by (rewrite app_length; cbn; lia).
  apply at_cursor. cbn. now rewrite <- app_assoc.
Qed.

Lemma newline_at t P l1 l2 Q : at_ t P l1 l2 Q -> read_only (conf t) = false ->
  (0 <? max_lines (conf t)) && (max_lines (conf t) <=? Z.of_nat (length (buf t))) = false ->
  at_ (newline t) (P ++ [l1]) [] l2 Q /\ same_env t (newline t).
Proof.
  intros (E & R & C) Hro Hm. unfold newline. rewrite Hro, Hm, E, R, C, insert_newline_at. split; [|split; reflexivity].
  replace (S (length P)) with (length (P ++ [l1])) by (rewrite app_length; cbn; lia).
  apply (at_cursor _ (P ++ [l1]) [] l2 Q). cbn. now rewrite <- app_assoc.
Qed.

Lemma snoc_case {A} (l : list A) : l = [] \/ exists l' x, l = l' ++ [x].
Proof. induction l using rev_ind; eauto. Qed.

Lemma backspace_char_at t P l1 x l2 Q : at_ t P (l1 ++ [x]) l2 Q -> read_only (conf t) = false ->
  let to := zpos (length P) (length l1) in
  if allowed t (zpos (row t) (col t)) to
  then at_ (fst (backspace t)) P l1 l2 Q /\ same_env t (fst (backspace t)) /\ snd (backspace t) = []
  else backspace t = (t, [EBlocked to]).
Proof.
  intros (E & R & C) Hro to. unfold backspace. rewrite Hro, C, R. rewrite app_length, Nat.add_1_r. fold to.
  destruct (allowed _ _ _); [|reflexivity]. cbn [fst snd].
  rewrite E, <- app_assoc. cbn [app]. rewrite delete_char_at. split; [apply at_cursor; reflexivity|split; [split|]; reflexivity].
Qed.
Lemma backspace_line_at t P l0 l2 Q : at_ t (P ++ [l0]) [] l2 Q -> read_only (conf t) = false ->
  let to := zpos (length P) (length l0) in
  if allowed t (zpos (row t) (col t)) to
  then at_ (fst (backspace t)) P l0 l2 Q /\ same_env t (fst (backspace t)) /\ snd (backspace t) = []
  else backspace t = (t, [EBlocked to]).
Proof.
  intros (E & R & C) Hro to. pose proof (cur_line_at t (P ++ [l0]) [] l2 Q (conj E (conj R C))) as CL.
  unfold backspace. rewrite Hro, C, CL, E. cbn [length app]. rewrite R, app_length. cbn [length]. rewrite Nat.add_1_r. unfold get_line.
  rewrite <- app_assoc. cbn [app]. rewrite nth_at. fold to.
  destruct (allowed _ _ _); [|reflexivity]. cbn [fst snd]. rewrite set_line_at.
  replace (P ++ (l0 ++ l2) :: l2 :: Q) with ((P ++ [l0 ++ l2]) ++ l2 :: Q) by (rewrite <- app_assoc; reflexivity).
  replace (S (length P)) with (length (P ++ [l0 ++ l2])) by (rewrite app_length; cbn; lia).
  rewrite delete_line_at by (rewrite !app_length; cbn; lia).
  split; [apply at_cursor; cbn; rewrite <- app_assoc; reflexivity|split; [split|]; reflexivity].
Qed.
Lemma backspace_start t : row t = 0%nat -> col t = 0%nat -> backspace t = (t, []).
Proof. intros R C. unfold backspace. rewrite R, C. destruct (read_only (conf t)); reflexivity. Qed.

Lemma join_next_at t P l1 l' Q : at_ t P l1 [] (l' :: Q) -> join_next t = P ++ (l1 ++ l') :: Q.
Proof.
  intros A. pose proof (cur_line_at _ _ _ _ _ A) as CL. destruct A as (E & R & C). rewrite app_nil_r in *.
  unfold join_next. rewrite CL, E, R. unfold get_line.
  replace (nth (S (length P)) (P ++ l1 :: l' :: Q) []) with l'.
  2:{ replace (P ++ l1 :: l' :: Q) with ((P ++ [l1]) ++ l' :: Q) by (rewrite <- app_assoc; reflexivity).
      replace (S (length P)) with (length (P ++ [l1])) by (rewrite app_length; cbn; lia). now rewrite nth_at. }
  rewrite set_line_at.
  replace (P ++ (l1 ++ l') :: l' :: Q) with ((P ++ [l1 ++ l']) ++ l' :: Q) by (rewrite <- app_assoc; reflexivity).
  replace (S (length P)) with (length (P ++ [l1 ++ l'])) by (rewrite app_length; cbn; lia).
  rewrite delete_line_at by (rewrite !app_length; cbn; lia). rewrite <- app_assoc. reflexivity.
Qed.

Lemma at_len t P l1 l2 Q : at_ t P l1 l2 Q ->
  (length (cur_line t) <=? col t)%nat = match l2 with [] => true | _ => false end /\
  (row t <? length (buf t) - 1)%nat = match Q with [] => false | _ => true end /\
  (col t <? length (cur_line t))%nat = match l2 with [] => false | _ => true end /\
  (length (buf t) - 1 <=? row t)%nat = match Q with [] => true | _ => false end.
Proof.
  intros A. rewrite (cur_line_at _ _ _ _ _ A). destruct A as (E & R & C). rewrite E, R, C, !app_length.
  destruct l2, Q; cbn [length]; repeat split; lia.
Qed.

Lemma delete_forward_at t P l1 l2 Q : at_ t P l1 l2 Q -> read_only (conf t) = false ->
  match l2, Q with
  | x :: r, _ => at_ (delete_forward t) P l1 r Q /\ same_env t (delete_forward t)
  | [], l' :: Q' => at_ (delete_forward t) P l1 l' Q' /\ same_env t (delete_forward t)
  | [], [] => delete_forward t = t
  end.
Proof.
  intros A Hro. destruct (at_len _ _ _ _ _ A) as (L1 & L2 & _). unfold delete_forward. rewrite Hro, L1, L2.
  destruct l2 as [|x r].
  - destruct Q as [|l' Q]; [reflexivity|]. rewrite (join_next_at _ _ _ _ _ A). destruct A as (E & R & C).
    rewrite R, C. split; [apply at_cursor; reflexivity|split; reflexivity].
  - destruct A as (E & R & C). rewrite E, R, C, delete_char_at. split; [apply at_cursor; reflexivity|split; reflexivity].
Qed.

(* ---------- ring ---------- *)
Lemma kill_ok k t : ring_ok k -> ring_ok (kill k t).
Proof.
  unfold ring_ok, kill. intros [H1 H2]. destruct t; auto. cbn [items rmax]. rewrite app_length. cbn [length]. split; auto.
  destruct (rmax k <=? length (items k))%nat eqn:E; [|lia]. destruct (items k); cbn in *; lia.
Qed.
Lemma kill_yank k t : t <> [] -> yank_text (kill k t) = t.
Proof.
  intros H. destruct t as [|c t]; [congruence|]. unfold kill, yank_text. cbn [items ridx].
  match goal with |- nth _ (?x ++ _) _ = _ => set (its := x) end. rewrite app_length. cbn [length]. replace (length its + 1 - 1)%nat with (length its) by lia.
  apply nth_at.
Qed.

(* ---------- words ---------- *)
Lemma advance_spec f l : exists a b, l = a ++ b /\ length a = advance f l /\ Forall (fun c => f c = true) a /\
  match b with [] => True | c :: _ => f c = false end.
Proof.
  induction l as [|x l (a & b & E & L & F & B)]; cbn; [exists [], []; auto|].
  destruct (f x) eqn:Ef.
  - exists (x :: a), b. subst. cbn. auto.
  - exists [], (x :: l). auto.
Qed.

Lemma word_end_at l1 l2 : exists d r, l2 = d ++ r /\ word_end (l1 ++ l2) (length l1) = (length l1 + length d)%nat /\ all_word d /\
  match r with [] => True | c :: _ => boundary c = true end.
Proof.
  unfold word_end. rewrite skipn_at. destruct (advance_spec (fun r => negb (boundary r)) l2) as (a & b & E & L & F & B).
  exists a, b. rewrite L. repeat split; auto.
  - apply Forall_forall. intros c Hc. rewrite Forall_forall in F. specialize (F c Hc). now destruct (boundary c).
  - destruct b; auto. now destruct (boundary z).
Qed.
Lemma forward_at l1 l2 : exists d s r, l2 = d ++ s ++ r /\ forward_col (l1 ++ l2) (length l1) = (length l1 + length d + length s)%nat /\
  all_word d /\ all_sep s /\ match r with [] => True | c :: _ => boundary c = false end /\
  match s ++ r with [] => True | c :: _ => boundary c = true end.
Proof.
  unfold forward_col. destruct (word_end_at l1 l2) as (d & r & E & W & A & B). rewrite W. subst l2.
  rewrite app_assoc, <- app_length, skipn_at. destruct (advance_spec boundary r) as (a & b & E & L & F & B').
  exists d, a, b. subst r. rewrite L, app_length. repeat split; auto.
Qed.

Lemma nth_last {A} (l : list A) x m d : nth (length l) (l ++ x :: m) d = x.
Proof. apply nth_at. Qed.

Lemma back1_spec l1 : forall x m, exists a b, l1 ++ [x] = a ++ b /\ a <> [] /\ back1 (l1 ++ x :: m) (length l1) = (length a - 1)%nat /\
  all_sep b /\ (length a > 1 -> exists a' y, a = a' ++ [y] /\ boundary y = false)%nat.
Proof.
  induction l1 as [|y l1 IH] using rev_ind; intros x m.
  - exists [x], []. cbn. repeat split; auto; try discriminate; [constructor|lia].
  - rewrite app_length, Nat.add_1_r. cbn [back1].
    replace (nth (S (length l1)) ((l1 ++ [y]) ++ x :: m) 0) with x
      by (replace (S (length l1)) with (length (l1 ++ [y])) by (rewrite app_length; cbn; lia); now rewrite nth_at).
    destruct (boundary x) eqn:B.
    + replace ((l1 ++ [y]) ++ x :: m) with (l1 ++ y :: x :: m) by (rewrite <- app_assoc; reflexivity).
      destruct (IH y (x :: m)) as (a & b & E & Hn & H1 & H2 & H3).
      exists a, (b ++ [x]). rewrite H1. split.
      * rewrite E, <- app_assoc. reflexivity.
      * split; auto. split; auto. split; auto. apply Forall_app. split; auto.
    + exists ((l1 ++ [y]) ++ [x]), []. rewrite app_nil_r. split; auto. split; [destruct (l1 ++ [y]); discriminate|].
      split; [rewrite !app_length; cbn; lia|]. split; [constructor|]. intros _. eauto.
Qed.
Lemma back2_spec l1 : forall m, exists a b, l1 = a ++ b /\ back2 (l1 ++ m) (length l1) = length a /\ all_word b /\
  (a <> [] -> exists a' y, a = a' ++ [y] /\ boundary y = true).
Proof.
  induction l1 as [|y l1 IH] using rev_ind; intros m.
  - exists [], []. cbn. repeat split; auto; [constructor|congruence].
  - rewrite app_length, Nat.add_1_r. cbn [back2]. rewrite <- app_assoc. cbn [app]. rewrite nth_at.
    destruct (boundary y) eqn:B.
    + exists (l1 ++ [y]), []. rewrite app_nil_r. split; auto. split; [rewrite app_length; cbn; lia|]. split; [constructor|]. eauto.
    + destruct (IH (y :: m)) as (a & b & E & H1 & H2 & H3). exists a, (b ++ [y]). rewrite H1. subst l1.
      rewrite app_assoc. repeat split; auto. apply Forall_app; split; auto.
Qed.

(** Backward word: what is passed over is a run of word characters followed by separators
    (or, at the line's start, just the first character and separators). *)
Lemma backward_at l1 l2 : l1 <> [] -> exists a w s, l1 = a ++ w ++ s /\ w <> [] /\ backward_col (l1 ++ l2) (length l1) = length a /\
  all_sep s /\ (all_word w \/ (a = [] /\ exists c, w = [c])) /\ (a <> [] -> exists a' y, a = a' ++ [y] /\ boundary y = true).
Proof.
  intros Hne. destruct (snoc_case l1) as [->|(l0 & x & ->)]; [congruence|]. unfold backward_col.
  rewrite app_length. cbn [length]. replace (length l0 + 1 - 1)%nat with (length l0) by lia.
  rewrite <- app_assoc. cbn [app]. destruct (back1_spec l0 x l2) as (a & s & E & Hn & H1 & H2 & H3). rewrite H1.
  destruct (snoc_case a) as [->|(a0 & y & ->)]; [congruence|]. rewrite app_length. cbn [length].
  replace (length a0 + 1 - 1)%nat with (length a0) by lia.
  assert (EQ : l0 ++ x :: l2 = a0 ++ (y :: s ++ l2)).
  { transitivity ((l0 ++ [x]) ++ l2); [rewrite <- app_assoc; reflexivity|]. rewrite E, <- !app_assoc. reflexivity. }
  rewrite EQ. destruct (back2_spec a0 (y :: s ++ l2)) as (b & w & E2 & K1 & K2 & K3). rewrite K1.
  exists b, (w ++ [y]), s. split; [rewrite E, E2, <- !app_assoc; reflexivity|].
  split; [destruct w; discriminate|]. split; auto. split; auto. split; [|auto].
  destruct a0 as [|z a0].
  - destruct b; [|discriminate]. destruct w; [|discriminate]. right. split; auto. exists y; auto.
  - left. apply Forall_app. split; auto. constructor; auto.
    destruct (H3 ltac:(rewrite app_length; cbn; lia)) as (a' & y' & Ea & Hy). apply app_inj_tail in Ea as [_ ->]. auto.
Qed.

(* ---------- motions ---------- *)

Definition in_text (t : ta) (r c : nat) : Prop := (r < length (buf t))%nat /\ (c <= length (nth r (buf t) []))%nat.
(** Text, ring and configuration are as before and the cursor is in the text. *)
Definition moved (t t' : ta) : Prop :=
  buf t' = buf t /\ kring t' = kring t /\ conf t' = conf t /\ in_text t (row t') (col t').

Lemma moved_valid t t' : valid t -> moved t t' -> valid t'.
Proof. intros [H1 H2 H3] (A & B & C & D1 & D2). constructor; rewrite ?A, ?B; auto. Qed.
Lemma moved_refl t : valid t -> moved t t.
Proof. intros [H1 H2 H3]. repeat split; auto. Qed.
Lemma moved_cursor t r c : in_text t r c -> moved t (with_cursor t r c).
Proof. intros H. repeat split; apply H. Qed.
Lemma go_moved t r c : valid t -> in_text t r c -> moved t (fst (go t r c)).
Proof. intros Hv H. unfold go. destruct (allowed _ _ _); [apply moved_cursor; auto|apply moved_refl; auto]. Qed.
Lemma move_cursor_moved t r c : valid t -> in_text t r c -> moved t (fst (move_cursor t r c)).
Proof. intros Hv H. unfold move_cursor. destruct (_ && _); [apply moved_refl; auto|apply go_moved; auto]. Qed.

Lemma first_ok_bound t n : forall c x, first_ok t c n = Some x -> (c <= x < c + n)%nat.
Proof.
  induction n as [|n IH]; intros c x H; cbn in H; [discriminate|]. destruct (allowed _ _ _).
  - apply some_inj in H. lia.
  - apply IH in H. lia.
Qed.

Lemma edge_moved t p : valid t -> moved t (fst (edge t p)).
Proof. intros H. unfold edge. destruct (validator _) as [v|]; [destruct (v _ _)|]; apply moved_refl; auto. Qed.

Lemma back1_le l c : (back1 l c <= c)%nat.
Proof. induction c; cbn [back1]; auto. match goal with |- context [boundary ?x] => destruct (boundary x) end; lia. Qed.
Lemma back2_le l c : (back2 l c <= c)%nat.
Proof. induction c; cbn [back2]; auto. match goal with |- context [boundary ?x] => destruct (boundary x) end; lia. Qed.
Lemma backward_le l c : (backward_col l c <= c - 1)%nat.
Proof. unfold backward_col. pose proof (back1_le l (c - 1)). pose proof (back2_le l (back1 l (c - 1))). lia. Qed.

Lemma move_left_moved t : valid t -> moved t (fst (move_left t)).
Proof.
  intros H. pose proof H as [H1 H2 H3]. unfold move_left. destruct (col t) as [|c] eqn:C; [destruct (row t) as [|r] eqn:R|].
  - apply moved_refl; auto.
  - apply go_moved; auto. split; [lia|unfold get_line; lia].
  - apply go_moved; auto. split; auto. lia.
Qed.
Lemma move_right_moved t : valid t -> moved t (fst (move_right t)).
Proof.
  intros H. pose proof H as [H1 H2 H3]. unfold move_right, cur_line, get_line.
  destruct (col t <? _)%nat eqn:E; [|destruct (row t <? _)%nat eqn:E2; [|apply moved_refl; auto]];
    apply go_moved; auto; split; lia.
Qed.
Lemma move_up_moved t : valid t -> moved t (fst (move_up t)).
Proof.
  intros H. pose proof H as [H1 H2 H3]. unfold move_up. destruct (row t) as [|r] eqn:R; [apply edge_moved; auto|].
  apply go_moved; auto. split; unfold get_line; lia.
Qed.
Lemma move_down_moved t : valid t -> moved t (fst (move_down t)).
Proof.
  intros H. pose proof H as [H1 H2 H3]. unfold move_down. destruct (_ <=? _)%nat eqn:E; [apply edge_moved; auto|].
  apply go_moved; auto. split; unfold get_line; lia.
Qed.
Lemma move_line_start_moved t : valid t -> moved t (fst (move_line_start t)).
Proof.
  intros H. pose proof H as [H1 H2 H3]. unfold move_line_start. destruct (validator _) as [v|].
  - destruct (first_ok _ _ _) eqn:E; [|apply moved_refl; auto]. apply move_cursor_moved; auto. apply first_ok_bound in E.
    unfold cur_line, get_line in E. split; auto; lia.
  - apply move_cursor_moved; auto. split; auto; lia.
Qed.
Lemma move_line_end_moved t : valid t -> moved t (fst (move_line_end t)).
Proof. intros H. pose proof H as [H1 H2 H3]. apply move_cursor_moved; auto. split; auto. Qed.
Lemma move_buffer_start_moved t : valid t -> moved t (fst (move_buffer_start t)).
Proof. intros H. pose proof H as [H1 H2 H3]. apply move_cursor_moved; auto. split; lia. Qed.
Lemma move_buffer_end_moved t : valid t -> moved t (fst (move_buffer_end t)).
Proof. intros H. pose proof H as [H1 H2 H3]. apply move_cursor_moved; auto. split; unfold get_line; lia. Qed.
Lemma forward_word_moved t : valid t -> moved t (fst (forward_word t)).
Proof.
  intros H. pose proof H as [H1 H2 H3]. apply move_cursor_moved; auto. split; auto.
  destruct (valid_at t H) as (P & l1 & l2 & Q & A). rewrite (cur_line_at _ _ _ _ _ A). destruct A as (E & R & C).
  rewrite E, R, C, nth_at. destruct (forward_at l1 l2) as (d & s & r & E2 & F & _). rewrite F, E2, !app_length. lia.
Qed.
Lemma backward_word_moved t : valid t -> moved t (fst (backward_word t)).
Proof.
  intros H. pose proof H as [H1 H2 H3]. unfold backward_word. destruct (col t) as [|c] eqn:C; [apply moved_refl; auto|].
  apply move_cursor_moved; auto. split; auto. pose proof (backward_le (cur_line t) (S c)). lia.
Qed.

(* ---------- edits keep the state valid and lines tidy ---------- *)

Definition keeps (t t' : ta) : Prop := valid t' /\ (tidy t -> tidy t').

Lemma keeps_refl t : valid t -> keeps t t.
Proof. split; auto. Qed.
Lemma keeps_moved t t' : valid t -> moved t t' -> keeps t t'.
Proof. intros Hv H. split; [eapply moved_valid; eauto|]. destruct H as (A & _). unfold tidy. rewrite A. auto. Qed.
Lemma keeps_at t t' P l1 l2 Q P' l1' l2' Q' : valid t -> at_ t P l1 l2 Q -> at_ t' P' l1' l2' Q' -> ring_ok (kring t') ->
  (clean P l1 l2 Q -> clean P' l1' l2' Q') -> keeps t t'.
Proof.
  intros Hv A A' K H. split; [eapply at_valid; eauto|]. rewrite (tidy_at _ _ _ _ _ A), (tidy_at _ _ _ _ _ A'). auto.
Qed.

Lemma clean_snoc P l1 l2 Q c : c <> nl -> clean P l1 l2 Q -> clean P (l1 ++ [c]) l2 Q.
Proof. intros Hc (A & B & C & D). repeat split; auto. intros H. apply in_app_or in H as [H|[H|[]]]; auto. Qed.

Lemma type_char_valid t ch : valid t -> valid (type_char t ch) /\ (ch <> nl -> tidy t -> tidy (type_char t ch)).
Proof.
  intros H. destruct (read_only (conf t)) eqn:Ro; [unfold type_char; rewrite Ro; auto|].
  destruct (valid_at t H) as (P & l1 & l2 & Q & A). destruct (type_char_at t P l1 l2 Q ch A Ro) as [B [K _]].
  split; [eapply at_valid; eauto; rewrite K; apply H|]. intros Hc. rewrite (tidy_at _ _ _ _ _ A), (tidy_at _ _ _ _ _ B).
  apply clean_snoc; auto.
Qed.
Lemma newline_keeps t : valid t -> keeps t (newline t).
Proof.
  intros H. destruct (read_only (conf t)) eqn:Ro; [unfold newline; rewrite Ro; apply keeps_refl; auto|].
  destruct ((0 <? max_lines (conf t)) && (max_lines (conf t) <=? Z.of_nat (length (buf t)))) eqn:M.
  - unfold newline. rewrite Ro, M. apply keeps_refl; auto.
  - destruct (valid_at t H) as (P & l1 & l2 & Q & A). destruct (newline_at t P l1 l2 Q A Ro M) as [B [K _]].
    eapply keeps_at; eauto; [rewrite K; apply H|]. intros (C1 & C2 & C3 & C4). split; [apply Forall_app; split; auto|]. split; [intros []|auto].
Qed.


Lemma backspace_keeps t : valid t -> keeps t (fst (backspace t)).
Proof.
  intros H. destruct (read_only (conf t)) eqn:Ro; [unfold backspace; rewrite Ro; apply keeps_refl; auto|].
  destruct (valid_at t H) as (P & l1 & l2 & Q & A). destruct (snoc_case l1) as [->|(l0 & x & ->)].
  - destruct (snoc_case P) as [->|(P0 & l0 & ->)].
    + rewrite backspace_start by apply A. apply keeps_refl; auto.
    + pose proof (backspace_line_at t P0 l0 l2 Q A Ro) as B. cbn zeta in B. destruct (allowed _ _ _).
      * destruct B as (B & [K _] & _). eapply keeps_at; eauto; [rewrite K; apply H|].
        intros (C1 & C2 & C3 & C4). apply Forall_app in C1 as [C1 C5]. inversion C5. repeat split; auto.
      * rewrite B. apply keeps_refl; auto.
  - pose proof (backspace_char_at t P l0 x l2 Q A Ro) as B. cbn zeta in B. destruct (allowed _ _ _).
    + destruct B as (B & [K _] & _). eapply keeps_at; eauto; [rewrite K; apply H|].
      intros (C1 & C2 & C3 & C4). apply not_in_app in C2. repeat split; tauto.
    + rewrite B. apply keeps_refl; auto.
Qed.

Lemma clean_tail P l1 x l2 Q : clean P l1 (x :: l2) Q -> clean P l1 l2 Q.
Proof. intros (A & B & C & D). repeat split; auto. intros E. apply C. right; auto. Qed.
Lemma clean_pull P l1 l' Q : clean P l1 [] (l' :: Q) -> clean P l1 l' Q.
Proof. intros (A & B & C & D). inversion D. repeat split; auto. Qed.

Lemma delete_forward_keeps t : valid t -> keeps t (delete_forward t).
Proof.
  intros H. destruct (read_only (conf t)) eqn:Ro; [unfold delete_forward; rewrite Ro; apply keeps_refl; auto|].
  destruct (valid_at t H) as (P & l1 & l2 & Q & A). pose proof (delete_forward_at t P l1 l2 Q A Ro) as B.
  destruct l2 as [|x l2]; [destruct Q as [|l' Q]|].
  - rewrite B. apply keeps_refl; auto.
  - destruct B as [B [K _]]. eapply keeps_at; eauto; [rewrite K; apply H|]. apply clean_pull.
  - destruct B as [B [K _]]. eapply keeps_at; eauto; [rewrite K; apply H|]. apply clean_tail.
Qed.

(** Kills that leave the cursor at the very beginning. *)
Lemma origin_keeps t b k : valid t -> b <> [] -> ring_ok k ->
  (tidy t -> Forall (fun l => ~ In nl l) b) -> keeps t (with_ring (with_buffer t b) k).
Proof.
  intros H Hb Hk Hc. split; [|exact Hc]. constructor; cbn; auto; [|lia]. destruct b; [congruence|cbn; lia].
Qed.

Lemma app_cons_ne {A} (P : list A) x Q : P ++ x :: Q <> [].
Proof. destruct P; discriminate. Qed.

(** What killing to the end of the line does to the buffer. *)
Lemma kill_line_at t P l1 l2 Q : at_ t P l1 l2 Q -> read_only (conf t) = false ->
  match l2, Q with
  | x :: r, _ => kill_line t = with_ring (with_buffer t (P ++ l1 :: Q)) (kill (kring t) (x :: r))
  | [], l' :: Q' => kill_line t = with_ring (with_buffer t (P ++ (l1 ++ l') :: Q')) (kill (kring t) [nl])
  | [], [] => kill_line t = t
  end.
Proof.
  intros A Hro. destruct (at_len _ _ _ _ _ A) as (L1 & L2 & _). unfold kill_line. rewrite Hro, L1, L2.
  destruct l2 as [|x r].
  - destruct Q as [|l' Q]; [reflexivity|]. rewrite (join_next_at _ _ _ _ _ A). reflexivity.
  - rewrite (cur_line_at _ _ _ _ _ A). destruct A as (E & R & C). rewrite E, R, C, delete_to_line_end_at, skipn_at. reflexivity.
Qed.
Lemma kill_line_keeps t : valid t -> keeps t (kill_line t).
Proof.
  intros H. destruct (read_only (conf t)) eqn:Ro; [unfold kill_line; rewrite Ro; apply keeps_refl; auto|].
  destruct (valid_at t H) as (P & l1 & l2 & Q & A). pose proof (kill_line_at t P l1 l2 Q A Ro) as B.
  assert (K : ring_ok (kring t)) by apply H.
  destruct l2 as [|x l2]; [destruct Q as [|l' Q]|]; rewrite B.
  - apply keeps_refl; auto.
  - apply origin_keeps; auto using app_cons_ne, kill_ok. rewrite (tidy_at _ _ _ _ _ A). intros C. apply clean_pull in C. now apply clean_buf in C.
  - apply origin_keeps; auto using app_cons_ne, kill_ok. rewrite (tidy_at _ _ _ _ _ A).
    intros (C1 & C2 & C3 & C4). apply Forall_app; split; auto.
Qed.

Lemma kill_word_at t P l1 l2 Q : at_ t P l1 l2 Q -> read_only (conf t) = false ->
  exists d r, l2 = d ++ r /\ all_word d /\ match r with [] => True | c :: _ => boundary c = true end /\
    kill_word t = match d with [] => t | _ => with_ring (with_buffer t (P ++ (l1 ++ r) :: Q)) (kill (kring t) d) end.
Proof.
  intros A Hro. destruct (word_end_at l1 l2) as (d & r & E & W & D & B). exists d, r. split; auto. split; auto. split; auto.
  unfold kill_word. rewrite Hro, (cur_line_at _ _ _ _ _ A). destruct A as (Eb & R & C). rewrite C, W.
  destruct d as [|x d]; [cbn [length]; rewrite Nat.add_0_r, Nat.eqb_refl; reflexivity|].
  replace (length l1 + length (x :: d) =? length l1)%nat with false by (symmetry; apply Nat.eqb_neq; cbn; lia).
  replace (length l1 + length (x :: d) - length l1)%nat with (length (x :: d)) by lia.
  rewrite Eb, R, E, delete_n_at, skipn_at, firstn_at. reflexivity.
Qed.
Lemma kill_word_keeps t : valid t -> keeps t (kill_word t).
Proof.
  intros H. destruct (read_only (conf t)) eqn:Ro; [unfold kill_word; rewrite Ro; apply keeps_refl; auto|].
  destruct (valid_at t H) as (P & l1 & l2 & Q & A). destruct (kill_word_at t P l1 l2 Q A Ro) as (d & r & E & _ & _ & ->).
  destruct d as [|x d]; [apply keeps_refl; auto|].
  apply origin_keeps; auto using app_cons_ne; [apply kill_ok; apply H|]. rewrite (tidy_at _ _ _ _ _ A).
  intros (C1 & C2 & C3 & C4). apply clean_buf. repeat split; auto. subst l2. apply not_in_app in C3. tauto.
Qed.

Lemma kill_back_at t P l1 l2 Q : at_ t P l1 l2 Q -> read_only (conf t) = false -> l1 <> [] ->
  exists a w s, l1 = a ++ w ++ s /\ w <> [] /\ all_sep s /\ (all_word w \/ (a = [] /\ exists c, w = [c])) /\
    (a <> [] -> exists a' y, a = a' ++ [y] /\ boundary y = true) /\
    at_ (kill_word_backward t) P a l2 Q /\ conf (kill_word_backward t) = conf t /\
    kring (kill_word_backward t) = kill (kring t) (w ++ s).
Proof.
  intros A Hro Hne. destruct (backward_at l1 l2 Hne) as (a & w & s & E & Hw & B & S & W & Ba).
  exists a, w, s. do 5 (split; auto).
  assert (M : kill_word_backward t = with_ring (with_cursor (with_buffer t (delete_n (buf t) (row t) (backward_col (cur_line t) (col t)) (col t - backward_col (cur_line t) (col t)))) (row t) (backward_col (cur_line t) (col t)))
           (kill (kring t) (firstn (col t - backward_col (cur_line t) (col t)) (skipn (backward_col (cur_line t) (col t)) (cur_line t))))).
  { unfold kill_word_backward. rewrite Hro. destruct (col t) eqn:Ec; [|reflexivity]. destruct A as (_ & _ & C).
    destruct l1; [congruence|]. rewrite C in Ec. discriminate. }
  rewrite M. rewrite (cur_line_at _ _ _ _ _ A). destruct A as (Eb & R & C). rewrite C, B, Eb, R.
  rewrite E. rewrite app_length. replace (length a + length (w ++ s) - length a)%nat with (length (w ++ s)) by lia.
  rewrite <- (app_assoc a (w ++ s) l2). rewrite skipn_at, firstn_at, delete_n_at.
  split; [|split; reflexivity]. repeat split; auto.
Qed.
Lemma kill_back_keeps t : valid t -> keeps t (kill_word_backward t).
Proof.
  intros H. destruct (read_only (conf t)) eqn:Ro; [unfold kill_word_backward; rewrite Ro; apply keeps_refl; auto|].
  destruct (valid_at t H) as (P & l1 & l2 & Q & A). destruct l1 as [|x l1].
  - unfold kill_word_backward. rewrite Ro. destruct A as (_ & _ & ->). apply keeps_refl; auto.
  - destruct (kill_back_at t P (x :: l1) l2 Q A Ro) as (a & w & s & E & _ & _ & _ & _ & B & _ & K); [discriminate|].
    eapply keeps_at; eauto; [rewrite K; apply kill_ok; apply H|].
    intros (C1 & C2 & C3 & C4). rewrite E in C2. apply not_in_app in C2. repeat split; tauto.
Qed.

Lemma yank_at t P l1 l2 Q : at_ t P l1 l2 Q -> read_only (conf t) = false ->
  exists P' l1', at_ (yank t) P' l1' l2 Q /\ same_env t (yank t) /\ bef P' l1' = bef P l1 ++ yank_text (kring t) /\
    (clean P l1 l2 Q -> clean P' l1' l2 Q).
Proof.
  intros A Hro. unfold yank. rewrite Hro. destruct (yank_text (kring t)) as [|c text] eqn:Y.
  - exists P, l1. rewrite app_nil_r. repeat split; auto; try apply A; apply H.
  - pose proof A as (E & R & C). destruct (insert_text_at (c :: text) P l1 l2 Q) as (P' & l1' & I & B & K).
    exists P', l1'. rewrite E, R, C, I. split; [apply at_cursor; reflexivity|]. split; [split; reflexivity|]. split; auto.
    intros (C1 & C2 & C3 & C4). destruct (K C1 C2). repeat split; auto.
Qed.
Lemma yank_keeps t : valid t -> keeps t (yank t).
Proof.
  intros H. destruct (read_only (conf t)) eqn:Ro; [unfold yank; rewrite Ro; apply keeps_refl; auto|].
  destruct (valid_at t H) as (P & l1 & l2 & Q & A). destruct (yank_at t P l1 l2 Q A Ro) as (P' & l1' & B & [K _] & _ & C).
  eapply keeps_at; eauto. rewrite K. apply H.
Qed.

(* ---------- keys ---------- *)

Definition motions (t : ta) : list (ta * list event) :=
  [move_left t; move_right t; move_up t; move_down t; move_line_start t; move_line_end t; move_buffer_start t;
   move_buffer_end t; forward_word t; backward_word t].
Definition edits (t : ta) : list ta :=
  [kill_line t; kill_word_backward t; yank t; delete_forward t; fst (backspace t); newline t; kill_word t].

Ltac key_cases :=
  repeat match goal with
  | |- context [match (if ?b then _ else _) with _ => _ end] => destruct b eqn:?
  | |- context [if ?b then _ else _] => destruct b eqn:?
  end.

Lemma handle_cases k t :
  fst (handle k t) = t \/ In (handle k t) (motions t) \/ In (fst (handle k t)) (edits t) \/
  fst (handle k t) = kill_line (fst (move_line_start t)) \/
  (exists ch, (k_t k = KRune ch \/ ch = 32) /\ fst (handle k t) = type_char t ch).
Proof.
  destruct k as [c a kt0]. unfold handle, on_ctrl, on_alt, on_plain, quiet_ev, motions, edits. cbn [k_ctrl k_alt k_t].
  destruct c, a, kt0; cbn [orb]; key_cases; cbn [fst In]; auto 20.
  all: try (right; right; right; left; destruct (move_line_start t); reflexivity).
  all: try (right; right; right; right; eexists; split; [|reflexivity]; auto; fail).
  all: try (right; left; tauto).
  all: try (right; right; left; tauto).
Qed.

Lemma motions_moved t x : valid t -> In x (motions t) -> moved t (fst x).
Proof.
  intros H [<-|[<-|[<-|[<-|[<-|[<-|[<-|[<-|[<-|[<-|[]]]]]]]]]]];
    auto using move_left_moved, move_right_moved, move_up_moved, move_down_moved, move_line_start_moved, move_line_end_moved,
      move_buffer_start_moved, move_buffer_end_moved, forward_word_moved, backward_word_moved.
Qed.
Lemma edits_keep t x : valid t -> In x (edits t) -> keeps t x.
Proof.
  intros H [<-|[<-|[<-|[<-|[<-|[<-|[<-|[]]]]]]]];
    auto using kill_line_keeps, kill_back_keeps, yank_keeps, delete_forward_keeps, backspace_keeps, newline_keeps, kill_word_keeps.
Qed.
Lemma keeps_trans a b c : keeps a b -> keeps b c -> keeps a c.
Proof. intros [_ A] [B C]. split; auto. Qed.

Lemma handle_keeps k t : valid t -> valid (fst (handle k t)) /\ (k_t k <> KRune nl -> tidy t -> tidy (fst (handle k t))).
Proof.
  intros H. destruct (handle_cases k t) as [E|[E|[E|[E|(ch & Hc & E)]]]].
  - rewrite E. auto.
  - pose proof (keeps_moved _ _ H (motions_moved _ _ H E)) as [A B]. auto.
  - pose proof (edits_keep _ _ H E) as [A B]. auto.
  - rewrite E. pose proof (move_line_start_moved t H) as M. pose proof (keeps_moved _ _ H M) as K.
    pose proof (keeps_trans _ _ _ K (kill_line_keeps _ (proj1 K))) as [A B]. auto.
  - rewrite E. destruct (type_char_valid t ch H) as [A B]. split; auto. intros Hk. apply B. destruct Hc as [Hc| ->]; [congruence|discriminate].
Qed.

Lemma split_lines_ne s : split_lines s <> [].
Proof. destruct s as [|c s]; cbn; [discriminate|]. destruct (split_lines s); [discriminate|]. destruct (c =? nl); discriminate. Qed.
Lemma split_lines_tidy s : Forall (fun l => ~ In nl l) (split_lines s).
Proof.
  induction s as [|c s IH]; cbn; [constructor; auto|]. destruct (split_lines s) as [|l ls] eqn:E; [now apply split_lines_ne in E|].
  inversion IH; subst. destruct (c =? nl) eqn:C; constructor; auto. intros [->|H]; auto. discriminate.
Qed.
Lemma join_split s : join_lines (split_lines s) = s.
Proof.
  induction s as [|c s IH]; [reflexivity|]. cbn [split_lines]. destruct (split_lines s) as [|l ls] eqn:E; [now apply split_lines_ne in E|].
  rewrite join_cons in IH. destruct (c =? nl) eqn:C.
  - apply Z.eqb_eq in C. subst c. rewrite join_cons. cbn. f_equal. exact IH.
  - rewrite join_cons. cbn. f_equal. exact IH.
Qed.

Lemma set_cfg_valid t c : valid t -> valid (set_cfg t c).
Proof. intros [A B C]. constructor; auto. Qed.

Lemma apply_keeps o t : valid t -> valid (apply o t) /\ (proper o -> tidy t -> tidy (apply o t)).
Proof.
  intros H. pose proof H as [H1 H2 H3]. destruct o; cbn [apply proper]; try (split; [apply set_cfg_valid|]; auto; fail).
  - apply handle_keeps; auto.
  - split; [|intros _ _; apply split_lines_tidy]. constructor; cbn; auto; [|lia].
    pose proof (split_lines_ne text). destruct (split_lines text); [congruence|cbn; lia].
  - split; [|auto]. constructor; cbn; auto; unfold get_line; lia.
  - split; [|auto]. unfold set_cursor, get_line, clampZ. constructor; cbn [buf row col kring]; auto; lia.
Qed.

Lemma apply_all_keeps os : forall t, valid t -> valid (apply_all os t) /\ (Forall proper os -> tidy t -> tidy (apply_all os t)).
Proof.
  induction os as [|o os IH]; intros t H; cbn; [auto|]. destruct (apply_keeps o t H) as [A B]. destruct (IH _ A) as [C D].
  split; auto. intros F T. inversion F; subst. auto.
Qed.
Lemma new_valid : valid new_ta.
Proof. constructor; cbn; try split; lia. Qed.

(* ---------- the document determines the state ---------- *)

Lemma count_nl_notin l : ~ In nl l -> count_occ Z.eq_dec l nl = 0%nat.
Proof. apply count_occ_not_In. Qed.
Lemma count_bef P l1 : Forall (fun l => ~ In nl l) P -> ~ In nl l1 -> count_occ Z.eq_dec (bef P l1) nl = length P.
Proof.
  intros HP H1. unfold bef. rewrite count_occ_app, (count_nl_notin l1 H1). clear H1. induction HP; cbn [flat_map]; [reflexivity|].
  rewrite !count_occ_app, (count_nl_notin x H). cbn [count_occ]. destruct (Z.eq_dec nl nl); [|congruence]. cbn [length]. lia.
Qed.
Lemma to_newline_notin a b : ~ In nl a -> to_newline (a ++ nl :: b) = a.
Proof.
  induction a as [|x a IH]; intros H; [reflexivity|]. cbn [app to_newline]. destruct (x =? nl) eqn:E; [exfalso; apply H; left; lia|].
  f_equal. apply IH. intros H'. apply H. right; auto.
Qed.
Lemma to_newline_all a : ~ In nl a -> to_newline a = a.
Proof.
  induction a as [|x a IH]; intros H; [reflexivity|]. cbn [app to_newline]. destruct (x =? nl) eqn:E; [exfalso; apply H; left; lia|].
  f_equal. apply IH. intros H'. apply H. right; auto.
Qed.
Lemma since_bef P l1 : Forall (fun l => ~ In nl l) P -> ~ In nl l1 -> since_newline (bef P l1) = l1.
Proof.
  intros HP H1. unfold since_newline, bef. rewrite rev_app_distr.
  assert (R : ~ In nl (rev l1)) by (rewrite <- in_rev; auto).
  destruct (snoc_case P) as [->|(P0 & l0 & ->)].
  - cbn. rewrite app_nil_r, to_newline_all by auto. apply rev_involutive.
  - rewrite flat_map_app. cbn. rewrite app_nil_r, app_assoc, rev_app_distr. cbn. rewrite to_newline_notin by auto. apply rev_involutive.
Qed.
Lemma split_app l : ~ In nl l -> forall s, split_lines (l ++ s) = match split_lines s with h :: r => (l ++ h) :: r | [] => [] end.
Proof.
  induction l as [|c l IH]; intros H s; [cbn [app]; destruct (split_lines s) eqn:E; auto|].
  cbn [app split_lines]. rewrite IH by (intros X; apply H; right; auto). destruct (split_lines s) as [|h r] eqn:E; [now apply split_lines_ne in E|].
  destruct (c =? nl) eqn:C; [exfalso; apply H; left; lia|]. reflexivity.
Qed.
Lemma split_join b : b <> [] -> Forall (fun l => ~ In nl l) b -> split_lines (join_lines b) = b.
Proof.
  induction b as [|l b IH]; intros Hne H; [congruence|]. inversion H; subst. destruct b as [|l' b].
  - cbn [join_lines]. rewrite <- (app_nil_r l) at 1. rewrite split_app by auto. cbn. now rewrite app_nil_r.
  - change (join_lines (l :: l' :: b)) with (l ++ nl :: join_lines (l' :: b)). rewrite split_app by auto. cbn [split_lines].
    rewrite IH by (auto; discriminate). rewrite Z.eqb_refl, app_nil_r. reflexivity.
Qed.

Lemma faithful t : valid t -> tidy t ->
  buf t = split_lines (before t ++ after t) /\ row t = count_occ Z.eq_dec (before t) nl /\ col t = length (since_newline (before t)).
Proof.
  intros H T. destruct (valid_at t H) as (P & l1 & l2 & Q & A). pose proof T as T'. apply (tidy_at _ _ _ _ _ A) in T'.
  destruct T' as (C1 & C2 & C3 & C4). split.
  - rewrite <- value_split by auto. unfold value. rewrite split_join; auto. destruct H. destruct (buf t); [cbn in *; lia|discriminate].
  - rewrite (before_at _ _ _ _ _ A), count_bef, since_bef by auto. destruct A as (_ & -> & ->). auto.
Qed.

(* ---------- left and right on the document ---------- *)

Lemma bef_snoc P l x : bef P (l ++ [x]) = bef P l ++ [x].
Proof. unfold bef. now rewrite app_assoc. Qed.
Lemma bef_line P l : bef (P ++ [l]) [] = bef P l ++ [nl].
Proof. unfold bef. rewrite flat_map_app. cbn. rewrite !app_nil_r, <- app_assoc. reflexivity. Qed.
Lemma bef_nil P l : bef P l = [] -> P = [] /\ l = [].
Proof. unfold bef. intros H. apply app_eq_nil in H as [A B]. split; auto. destruct P as [|x P]; auto. cbn in A. destruct x; discriminate. Qed.
Lemma aft_cons x l Q : aft (x :: l) Q = x :: aft l Q.
Proof. reflexivity. Qed.
Lemma aft_line l Q : aft [] (l :: Q) = nl :: aft l Q.
Proof. reflexivity. Qed.

Lemma move_left_at t P l1 l2 Q : at_ t P l1 l2 Q -> validator (conf t) = None ->
  (forall l0 x, l1 = l0 ++ [x] -> at_ (fst (move_left t)) P l0 (x :: l2) Q) /\
  (forall P0 l0, l1 = [] -> P = P0 ++ [l0] -> at_ (fst (move_left t)) P0 l0 [] (l2 :: Q)) /\
  (l1 = [] -> P = [] -> fst (move_left t) = t).
Proof.
  intros (E & R & C) Hv. unfold move_left, go, allowed. rewrite Hv, C, R, E. split; [|split].
  - intros l0 x ->. rewrite app_length, Nat.add_1_r. cbn [fst]. apply at_cursor. rewrite E, <- app_assoc. reflexivity.
  - intros P0 l0 -> ->. rewrite app_length, Nat.add_1_r. cbn [length fst]. unfold get_line. rewrite <- app_assoc. cbn [app]. rewrite nth_at.
    apply at_cursor. rewrite E, <- app_assoc, app_nil_r. reflexivity.
  - intros -> ->. reflexivity.
Qed.
Lemma move_right_at t P l1 l2 Q : at_ t P l1 l2 Q -> validator (conf t) = None ->
  match l2, Q with
  | x :: r, _ => at_ (fst (move_right t)) P (l1 ++ [x]) r Q
  | [], l' :: Q' => at_ (fst (move_right t)) (P ++ [l1]) [] l' Q'
  | [], [] => fst (move_right t) = t
  end.
Proof.
  intros A Hv. destruct (at_len _ _ _ _ _ A) as (_ & L2 & L3 & _). unfold move_right, go, allowed. rewrite Hv, L3, L2.
  destruct A as (E & R & C). destruct l2 as [|x r]; [destruct Q as [|l' Q]|]; cbn [fst]; auto.
  - rewrite R. replace (S (length P)) with (length (P ++ [l1])) by (rewrite app_length; cbn; lia).
    apply (at_cursor _ (P ++ [l1]) [] l' Q). rewrite E, app_nil_r, <- app_assoc. reflexivity.
  - rewrite R, C. replace (S (length l1)) with (length (l1 ++ [x])) by (rewrite app_length; cbn; lia).
    apply at_cursor. rewrite E, <- app_assoc. reflexivity.
Qed.

(* ---------- visibility ---------- *)
Lemma scroll_to_visible p s0 s : 1 <= s0 -> scroll_to p s0 s <= p < scroll_to p s0 s + s0.
Proof. intros H. unfold scroll_to. destruct (p <? s) eqn:E; destruct (_ <=? p) eqn:E2; lia. Qed.
Lemma with_cursor_visible t r c : 1 <= height (conf t) -> 1 <= width (conf t) -> cursor_visible (with_cursor t r c).
Proof.
  intros Hh Hw. unfold cursor_visible, with_cursor. cbn [srow row col scol conf]. split; [apply scroll_to_visible; auto|].
  intros ->. apply scroll_to_visible; auto.
Qed.

(** Every motion leaves the area alone or sets the cursor through the validator. *)
Definition stepped (t : ta) (x : ta * list event) : Prop :=
  (fst x = t /\ forall f g, ~ In (EMoved f g) (snd x)) \/
  exists r c, fst x = with_cursor t r c /\ snd x = [EMoved (zpos (row t) (col t)) (zpos r c)] /\ allowed t (zpos (row t) (col t)) (zpos r c) = true.
Lemma stepped_refl t e : (forall f g, ~ In (EMoved f g) e) -> stepped t (t, e).
Proof. left. auto. Qed.
Lemma go_stepped t r c : stepped t (go t r c).
Proof.
  unfold go. destruct (allowed _ _ _) eqn:E; [right; exists r, c; auto|]. left. split; auto. intros f g [H|[]]. discriminate.
Qed.
Lemma move_cursor_stepped t r c : stepped t (move_cursor t r c).
Proof. unfold move_cursor. destruct (_ && _); [apply stepped_refl; auto|apply go_stepped]. Qed.
Lemma edge_stepped t p : stepped t (edge t p).
Proof.
  unfold edge. destruct (validator _) as [v|]; [destruct (v _ _)|]; apply stepped_refl; auto. intros f g [H|[]]; discriminate.
Qed.
Lemma motions_stepped t x : In x (motions t) -> stepped t x.
Proof.
  assert (N : forall f g, ~ In (EMoved f g) []) by auto.
  intros [<-|[<-|[<-|[<-|[<-|[<-|[<-|[<-|[<-|[<-|[]]]]]]]]]]];
    unfold move_line_end, move_buffer_start, move_buffer_end, forward_word; try apply move_cursor_stepped.
  - unfold move_left. destruct (col t); [destruct (row t)|]; [apply stepped_refl; auto|apply go_stepped|apply go_stepped].
  - unfold move_right. destruct (_ <? _)%nat; [apply go_stepped|]. destruct (_ <? _)%nat; [apply go_stepped|apply stepped_refl; auto].
  - unfold move_up. destruct (row t); [apply edge_stepped|apply go_stepped].
  - unfold move_down. destruct (_ <=? _)%nat; [apply edge_stepped|apply go_stepped].
  - unfold move_line_start. destruct (validator _); [|apply move_cursor_stepped]. destruct (first_ok _ _ _); [apply move_cursor_stepped|].
    apply stepped_refl. intros f g [H|[]]; discriminate.
  - unfold backward_word. destruct (col t); [apply stepped_refl; auto|apply move_cursor_stepped].
Qed.

Lemma is_letter_distinct a b r : a <> b -> a <> b - 32 -> a - 32 <> b -> is_letter a r = true -> is_letter b r = false.
Proof. unfold is_letter. intros. lia. Qed.

Lemma motion_handle k t : motion k = true -> In (handle k t) (motions t).
Proof.
  destruct k as [c a kt0]. unfold motion, is_ctrl_in, handle, on_ctrl, on_alt, on_plain, quiet_ev. cbn [k_ctrl k_alt k_t existsb].
  destruct c, a, kt0; cbn [andb orb negb]; try discriminate; unfold motions; cbn [In]; auto 20; intros H.
  all: repeat match goal with
       | |- context [if ?b then _ else _] => destruct b eqn:?
       end; auto 20; cbn [negb andb orb] in H; try discriminate H.
Qed.

(* ---------- limits ---------- *)
Lemma read_only_keys k t : read_only (conf t) = true -> valid t ->
  buf (fst (handle k t)) = buf t /\ kring (fst (handle k t)) = kring t.
Proof.
  intros Ro H. assert (Ed : forall x, In x (edits t) -> x = t).
  { unfold edits, kill_line, kill_word_backward, yank, delete_forward, backspace, newline, kill_word. rewrite Ro. cbn. intros x Hx. intuition. }
  destruct (handle_cases k t) as [E|[E|[E|[E|(ch & Hc & E)]]]].
  - rewrite E. auto.
  - destruct (motions_moved _ _ H E) as (A & B & _). auto.
  - rewrite (Ed _ E). auto.
  - rewrite E. destruct (move_line_start_moved t H) as (A & B & C & _). unfold kill_line. rewrite C, Ro. auto.
  - rewrite E. unfold type_char. rewrite Ro. auto.
Qed.

Lemma delete_char_len b r c : length (delete_char b r c) = length b.
Proof. unfold delete_char. destruct (_ <=? _)%nat; auto. destruct (_ <=? _)%nat; auto. apply set_nth_length. Qed.
Lemma delete_n_len b r c n : length (delete_n b r c n) = length b.
Proof. unfold delete_n. induction n; cbn; auto. rewrite delete_char_len. exact IHn. Qed.
Lemma set_line_len b r l : length (set_line b r l) = length b.
Proof. unfold set_line. destruct (_ <=? _)%nat; auto. apply set_nth_length. Qed.
Lemma delete_line_len b r : (length (delete_line b r) <= length b)%nat.
Proof.
  unfold delete_line. destruct (_ <=? _)%nat eqn:E; auto. destruct (_ =? _)%nat; [now rewrite set_nth_length|].
  rewrite app_length, firstn_length, skipn_length. lia.
Qed.
Lemma insert_char_len b r c ch : length (insert_char b r c ch) = length b.
Proof. unfold insert_char. destruct (_ <=? _)%nat; auto. apply set_nth_length. Qed.
Lemma insert_newline_len b r c : (length (insert_newline b r c) <= S (length b))%nat.
Proof.
  unfold insert_newline. destruct (_ <=? _)%nat; auto. rewrite app_length. cbn [length].
  rewrite firstn_length, skipn_length, set_nth_length. lia.
Qed.
Lemma dtle_len b r c : length (delete_to_line_end b r c) = length b.
Proof. unfold delete_to_line_end. destruct (_ <=? _)%nat; auto. destruct (_ <=? _)%nat; auto. apply set_nth_length. Qed.
Lemma join_next_len t : (length (join_next t) <= length (buf t))%nat.
Proof. unfold join_next. pose proof (delete_line_len (set_line (buf t) (row t) (cur_line t ++ get_line (buf t) (S (row t)))) (S (row t))). rewrite set_line_len in H. auto. Qed.

Lemma kill_line_len t : (length (buf (kill_line t)) <= length (buf t))%nat.
Proof.
  unfold kill_line. destruct (read_only _); [auto|]. destruct (_ <=? _)%nat; [destruct (_ <? _)%nat|]; cbn [with_ring with_buffer buf].
  - apply join_next_len.
  - auto.
  - now rewrite dtle_len.
Qed.
Definition edits_ny (t : ta) : list ta :=
  [kill_line t; kill_word_backward t; delete_forward t; fst (backspace t); newline t; kill_word t].
Lemma handle_cases_ny k t : is_ctrl_in [121] k = false ->
  fst (handle k t) = t \/ In (handle k t) (motions t) \/ In (fst (handle k t)) (edits_ny t) \/
  fst (handle k t) = kill_line (fst (move_line_start t)) \/
  (exists ch, fst (handle k t) = type_char t ch).
Proof.
  destruct k as [c a kt0]. unfold is_ctrl_in, handle, on_ctrl, on_alt, on_plain, quiet_ev, motions, edits_ny. cbn [k_ctrl k_alt k_t existsb].
  destruct c, a, kt0; cbn [orb andb]; intros Hy; rewrite ?orb_false_r in Hy; rewrite ?Hy; key_cases; cbn [fst In]; auto 20.
  all: try (right; right; right; left; destruct (move_line_start t); reflexivity).
  all: try (right; right; right; right; eexists; reflexivity).
  all: try (right; left; tauto).
  all: try (right; right; left; tauto).
Qed.

Lemma backspace_len t : (length (buf (fst (backspace t))) <= length (buf t))%nat.
Proof.
  unfold backspace. destruct (read_only _); [auto|]. destruct (col t), (row t); [auto|..]; destruct (allowed _ _ _); cbn [fst with_cursor with_buffer buf]; auto.
  - pose proof (delete_line_len (set_line (buf t) n (get_line (buf t) n ++ cur_line t)) (S n)). now rewrite set_line_len in H.
  - now rewrite delete_char_len.
  - now rewrite delete_char_len.
Qed.

Lemma max_lines_keys k t : 0 < max_lines (conf t) -> valid t ->
  is_ctrl_in [121] k = false ->
  Z.of_nat (length (buf (fst (handle k t)))) <= Z.max (Z.of_nat (length (buf t))) (max_lines (conf t)).
Proof.
  intros Hm H Hy.
  assert (W : forall x, (length (buf x) <= length (buf t))%nat -> Z.of_nat (length (buf x)) <= Z.max (Z.of_nat (length (buf t))) (max_lines (conf t))) by (intros; lia).
  destruct (handle_cases_ny k t Hy) as [E|[E|[E|[E|(ch & E)]]]].
  - rewrite E. apply W. auto.
  - destruct (motions_moved _ _ H E) as (A & _). rewrite A. lia.
  - destruct E as [E|[E|[E|[E|[E|[E|[]]]]]]]; rewrite <- E.
    + apply W, kill_line_len.
    + apply W. unfold kill_word_backward. destruct (read_only _); [auto|]. destruct (col t); [auto|].
      cbn [with_ring with_cursor with_buffer buf]. now rewrite delete_n_len.
    + apply W. unfold delete_forward. destruct (read_only _); [auto|]. destruct (_ <=? _)%nat; [destruct (_ <? _)%nat|];
      cbn [with_cursor with_buffer buf]; [apply join_next_len|auto|now rewrite delete_char_len].
    + apply W, backspace_len.
    + unfold newline. destruct (read_only _); [lia|]. destruct (_ && _) eqn:M; [lia|]. cbn [with_cursor with_buffer buf].
      pose proof (insert_newline_len (buf t) (row t) (col t)). lia.
    + apply W. unfold kill_word. destruct (read_only _); [auto|]. cbv zeta. match goal with |- context [if ?b then _ else _] => destruct b end; [auto|].
      cbn [with_ring with_buffer buf]. now rewrite delete_n_len.
  - rewrite E. destruct (move_line_start_moved t H) as (A & _). pose proof (kill_line_len (fst (move_line_start t))). rewrite A in H0. apply W; auto.
  - rewrite E. apply W. unfold type_char. destruct (read_only _); [auto|]. cbn [with_cursor with_buffer buf]. now rewrite insert_char_len.
Qed.

(* ---------- ring: contents and cycling ---------- *)
Definition lastn {A} (n : nat) (l : list A) : list A := skipn (length l - n) l.
Definition nonempty (l : list Z) : bool := match l with [] => false | _ => true end.
Lemma kill_items k t : (1 <= rmax k)%nat -> (length (items k) <= rmax k)%nat -> t <> [] ->
  items (kill k t) = lastn (rmax k) (items k ++ [t]).
Proof.
  intros H1 H2 Ht. destruct t as [|c t]; [congruence|]. unfold kill, lastn. cbn [items]. rewrite app_length. cbn [length].
  destruct (_ <=? _)%nat eqn:E.
  - replace (length (items k) + 1 - rmax k)%nat with 1%nat by lia. destruct (items k); [cbn in *; lia|reflexivity].
  - replace (length (items k) + 1 - rmax k)%nat with 0%nat by lia. reflexivity.
Qed.
Lemma skipn_add {A} a b (l : list A) : skipn a (skipn b l) = skipn (a + b) l.
Proof. revert l. induction b; intros l; [now rewrite Nat.add_0_r|]. rewrite Nat.add_succ_r. destruct l; cbn; [apply skipn_nil|apply IHb]. Qed.
Lemma lastn_snoc {A} n (l : list A) x : (1 <= n)%nat -> lastn n (lastn n l ++ [x]) = lastn n (l ++ [x]).
Proof.
  intros Hn. unfold lastn. rewrite !app_length, skipn_length. cbn [length].
  destruct (Nat.le_gt_cases (length l) n) as [L|L].
  - replace (length l - n)%nat with 0%nat by lia. cbn [skipn]. f_equal. lia.
  - replace (length l - (length l - n) + 1 - n)%nat with 1%nat by lia.
    replace (length l + 1 - n)%nat with (1 + (length l - n))%nat by lia.
    rewrite <- (skipn_add 1 (length l - n)). f_equal. rewrite skipn_app.
    replace (length l - n - length l)%nat with 0%nat by lia. reflexivity.
Qed.
Lemma kill_rmax k t : rmax (kill k t) = rmax k.
Proof. destruct t; reflexivity. Qed.
Lemma lastn_small {A} n (l : list A) : (length (lastn n l) <= n)%nat.
Proof. unfold lastn. rewrite skipn_length. lia. Qed.
Lemma kills_items ts : forall k base, (1 <= rmax k)%nat -> items k = lastn (rmax k) base ->
  items (fold_left kill ts k) = lastn (rmax k) (base ++ filter nonempty ts).
Proof.
  induction ts as [|t ts IH]; intros k base H1 H2; cbn [fold_left filter]; [now rewrite app_nil_r|].
  destruct t as [|c t]; cbn [nonempty].
  - apply IH; auto.
  - rewrite (IH (kill k (c :: t)) (base ++ [c :: t])); rewrite ?kill_rmax; auto.
    + rewrite <- app_assoc. reflexivity.
    + rewrite kill_items by (auto; try discriminate; rewrite H2; apply lastn_small). rewrite H2. apply lastn_snoc; auto.
Qed.

Lemma pop_items k : items (yank_pop k) = items k /\ rmax (yank_pop k) = rmax k.
Proof. unfold yank_pop. destruct (items k) eqn:E; cbn; auto. Qed.
Lemma pops_items n k : items (Nat.iter n yank_pop k) = items k.
Proof. induction n; [reflexivity|]. cbn [Nat.iter nat_rect]. change (nat_rect _ _ _ n) with (Nat.iter n yank_pop k). now rewrite (proj1 (pop_items _)). Qed.
Lemma pops_idx n k : items k <> [] -> (ridx k < length (items k))%nat -> (n <= ridx k)%nat ->
  ridx (Nat.iter n yank_pop k) = (ridx k - n)%nat.
Proof.
  intros Hne H. induction n as [|n IH]; intros Hn; [cbn; lia|]. cbn [Nat.iter nat_rect]. change (nat_rect _ _ _ n) with (Nat.iter n yank_pop k).
  unfold yank_pop at 1. rewrite pops_items. destruct (items k); [congruence|]. cbn [ridx]. rewrite IH by lia.
  destruct (_ =? _)%nat eqn:E; [apply Nat.eqb_eq in E; lia|]. lia.
Qed.
Lemma iter_plus {A} (f : A -> A) a b x : Nat.iter (a + b) f x = Nat.iter a f (Nat.iter b f x).
Proof. induction a; [reflexivity|]. cbn [Nat.iter nat_rect Nat.add]. f_equal. exact IHa. Qed.
Lemma pops_cycle k i : (ridx k < length (items k))%nat -> (i < length (items k))%nat ->
  exists n, (n < length (items k))%nat /\ ridx (Nat.iter n yank_pop k) = i.
Proof.
  intros H Hi. assert (Hne : items k <> []) by (intros E; rewrite E in H; cbn in H; lia).
  destruct (Nat.le_gt_cases i (ridx k)) as [L|L].
  - exists (ridx k - i)%nat. split; [lia|]. rewrite pops_idx by (auto; lia). lia.
  - exists ((length (items k) - 1 - i) + (1 + ridx k))%nat. split; [lia|].
    set (k1 := Nat.iter (1 + ridx k) yank_pop k).
    assert (E1 : ridx k1 = (length (items k) - 1)%nat /\ items k1 = items k).
    { subst k1. rewrite pops_items. split; auto. rewrite iter_plus. cbn [Nat.iter nat_rect].
      change (nat_rect _ _ _ (ridx k)) with (Nat.iter (ridx k) yank_pop k). unfold yank_pop at 1. rewrite pops_items. destruct (items k) eqn:Ei; [congruence|]. cbn [ridx].
      rewrite <- Ei in *. rewrite pops_idx by auto. rewrite Nat.sub_diag. reflexivity. }
    destruct E1 as [E1 E2]. rewrite iter_plus. fold k1. rewrite pops_idx; rewrite ?E2; auto; lia.
Qed.
Lemma kill_idx k t : (ridx k < length (items k))%nat \/ t <> [] -> (ridx (kill k t) < length (items (kill k t)))%nat.
Proof. intros H. destruct t as [|c t]; [destruct H; [exact H|congruence]|]. cbn [kill items ridx]. rewrite app_length. cbn [length]. lia. Qed.

(* ---------- configuration and key sequences ---------- *)
Lemma go_conf t r c : conf (fst (go t r c)) = conf t.
Proof. unfold go. destruct (allowed _ _ _); reflexivity. Qed.
Lemma stepped_conf t x : stepped t x -> conf (fst x) = conf t.
Proof. intros [[-> _]|(r & c & -> & _)]; reflexivity. Qed.
Lemma kill_line_conf t : conf (kill_line t) = conf t.
Proof. unfold kill_line. destruct (read_only _); [auto|]. destruct (_ <=? _)%nat; [destruct (_ <? _)%nat|]; reflexivity. Qed.
Lemma handle_conf k t : conf (fst (handle k t)) = conf t.
Proof.
  destruct (handle_cases k t) as [E|[E|[E|[E|(ch & Hc & E)]]]].
  - now rewrite E.
  - apply stepped_conf, motions_stepped; auto.
  - destruct E as [E|[E|[E|[E|[E|[E|[E|[]]]]]]]]; rewrite <- E.
    + apply kill_line_conf.
    + unfold kill_word_backward. destruct (read_only _); [auto|]. destruct (col t); reflexivity.
    + unfold yank. destruct (read_only _); [auto|]. destruct (yank_text _); [auto|]. destruct (insert_text _ _ _ _) as [[b r] c]. reflexivity.
    + unfold delete_forward. destruct (read_only _); [auto|]. destruct (_ <=? _)%nat; [destruct (_ <? _)%nat|]; reflexivity.
    + unfold backspace. destruct (read_only _); [auto|]. destruct (col t), (row t); [auto|..]; destruct (allowed _ _ _); reflexivity.
    + unfold newline. destruct (read_only _); [auto|]. destruct (_ && _); reflexivity.
    + unfold kill_word. destruct (read_only _); [auto|]. cbv zeta. match goal with |- context [if ?b then _ else _] => destruct b end; reflexivity.
  - rewrite E, kill_line_conf. apply stepped_conf, motions_stepped. cbn. auto 10.
  - rewrite E. unfold type_char. destruct (read_only _); reflexivity.
Qed.

Definition keys (ks : list key) (t : ta) : ta := apply_all (map OKey ks) t.
Lemma keys_cons k ks t : keys (k :: ks) t = keys ks (fst (handle k t)).
Proof. reflexivity. Qed.
Lemma keys_valid ks t : valid t -> valid (keys ks t).
Proof. intros H. apply apply_all_keeps; auto. Qed.
Lemma read_only_all ks : forall t, read_only (conf t) = true -> valid t -> buf (keys ks t) = buf t /\ kring (keys ks t) = kring t.
Proof.
  induction ks as [|k ks IH]; intros t Ro H; [auto|]. rewrite keys_cons. destruct (read_only_keys k t Ro H) as [A B].
  destruct (IH (fst (handle k t))) as [C D]; [now rewrite handle_conf|apply handle_keeps; auto|]. rewrite C, D. auto.
Qed.
Lemma max_lines_all ks : forall t, 0 < max_lines (conf t) -> valid t -> Forall (fun k => is_ctrl_in [121] k = false) ks ->
  Z.of_nat (length (buf t)) <= max_lines (conf t) -> Z.of_nat (length (buf (keys ks t))) <= max_lines (conf t).
Proof.
  induction ks as [|k ks IH]; intros t Hm H F L; [exact L|]. rewrite keys_cons. inversion F; subst.
  pose proof (max_lines_keys k t Hm H H2). rewrite <- (handle_conf k t). apply IH; auto; try rewrite handle_conf; auto; [apply handle_keeps; auto|lia].
Qed.

(* ---------- before / after ---------- *)
Lemma plain_char ch t : fst (handle (plain (KRune ch)) t) = type_char t ch.
Proof. reflexivity. Qed.
Lemma doc_type t ch : valid t -> read_only (conf t) = false ->
  before (type_char t ch) = before t ++ [ch] /\ after (type_char t ch) = after t.
Proof.
  intros H Ro. destruct (valid_at t H) as (P & l1 & l2 & Q & A). destruct (type_char_at t P l1 l2 Q ch A Ro) as [B _].
  rewrite (before_at _ _ _ _ _ A), (after_at _ _ _ _ _ A), (before_at _ _ _ _ _ B), (after_at _ _ _ _ _ B), bef_snoc. auto.
Qed.
Lemma doc_newline t : valid t -> read_only (conf t) = false -> (max_lines (conf t) <= 0 \/ Z.of_nat (length (buf t)) < max_lines (conf t)) ->
  before (newline t) = before t ++ [nl] /\ after (newline t) = after t.
Proof.
  intros H Ro Hm. destruct (valid_at t H) as (P & l1 & l2 & Q & A).
  destruct (newline_at t P l1 l2 Q A Ro) as [B _]; [lia|].
  rewrite (before_at _ _ _ _ _ A), (after_at _ _ _ _ _ A), (before_at _ _ _ _ _ B), (after_at _ _ _ _ _ B), bef_line. auto.
Qed.
Lemma allowed_none t a b : validator (conf t) = None -> allowed t a b = true.
Proof. unfold allowed. now intros ->. Qed.
Lemma doc_backspace t : valid t -> read_only (conf t) = false -> validator (conf t) = None ->
  (before t = [] /\ fst (backspace t) = t) \/
  (exists c, before t = before (fst (backspace t)) ++ [c] /\ after (fst (backspace t)) = after t).
Proof.
  intros H Ro Hv. destruct (valid_at t H) as (P & l1 & l2 & Q & A). destruct (snoc_case l1) as [->|(l0 & x & ->)].
  - destruct (snoc_case P) as [->|(P0 & l0 & ->)].
    + left. rewrite (before_at _ _ _ _ _ A). split; [reflexivity|]. destruct A as (_ & R & C). now rewrite backspace_start.
    + right. exists nl. pose proof (backspace_line_at t P0 l0 l2 Q A Ro) as B. cbv zeta in B. rewrite allowed_none in B by auto. destruct B as (B & _ & _).
      rewrite (before_at _ _ _ _ _ A), (after_at _ _ _ _ _ A), (before_at _ _ _ _ _ B), (after_at _ _ _ _ _ B), bef_line. auto.
  - right. exists x. pose proof (backspace_char_at t P l0 x l2 Q A Ro) as B. cbv zeta in B. rewrite allowed_none in B by auto. destruct B as (B & _ & _).
    rewrite (before_at _ _ _ _ _ A), (after_at _ _ _ _ _ A), (before_at _ _ _ _ _ B), (after_at _ _ _ _ _ B), bef_snoc. auto.
Qed.
Lemma doc_delete t : valid t -> read_only (conf t) = false ->
  (after t = [] /\ delete_forward t = t) \/
  (exists c, after t = c :: after (delete_forward t) /\ before (delete_forward t) = before t).
Proof.
  intros H Ro. destruct (valid_at t H) as (P & l1 & l2 & Q & A). pose proof (delete_forward_at t P l1 l2 Q A Ro) as B.
  destruct l2 as [|x l2]; [destruct Q as [|l' Q]|].
  - left. rewrite (after_at _ _ _ _ _ A). auto.
  - right. exists nl. destruct B as [B _]. rewrite (before_at _ _ _ _ _ A), (after_at _ _ _ _ _ A), (before_at _ _ _ _ _ B), (after_at _ _ _ _ _ B). auto.
  - right. exists x. destruct B as [B _]. rewrite (before_at _ _ _ _ _ A), (after_at _ _ _ _ _ A), (before_at _ _ _ _ _ B), (after_at _ _ _ _ _ B). auto.
Qed.
Definition same_place (a b : ta) : Prop := buf a = buf b /\ row a = row b /\ col a = col b.
Lemma at_same t t' P l1 l2 Q : at_ t P l1 l2 Q -> at_ t' P l1 l2 Q -> same_place t t'.
Proof. intros (A & B & C) (A' & B' & C'). unfold same_place. rewrite A, B, C, A', B', C'. auto. Qed.
Lemma type_undo t ch : valid t -> read_only (conf t) = false -> validator (conf t) = None ->
  same_place (fst (backspace (type_char t ch))) t.
Proof.
  intros H Ro Hv. destruct (valid_at t H) as (P & l1 & l2 & Q & A). destruct (type_char_at t P l1 l2 Q ch A Ro) as [B [K C]].
  pose proof (backspace_char_at _ _ _ _ _ _ B) as D. rewrite C in D. specialize (D Ro). cbv zeta in D. rewrite allowed_none in D by (rewrite C; auto).
  eapply at_same; [apply D|apply A].
Qed.
Lemma newline_undo t : valid t -> read_only (conf t) = false -> validator (conf t) = None ->
  (max_lines (conf t) <= 0 \/ Z.of_nat (length (buf t)) < max_lines (conf t)) ->
  same_place (fst (backspace (newline t))) t.
Proof.
  intros H Ro Hv Hm. destruct (valid_at t H) as (P & l1 & l2 & Q & A). destruct (newline_at t P l1 l2 Q A Ro) as [B [K C]]; [lia|].
  pose proof (backspace_line_at _ _ _ _ _ B) as D. rewrite C in D. specialize (D Ro). cbv zeta in D. rewrite allowed_none in D by (rewrite C; auto).
  eapply at_same; [apply D|apply A].
Qed.

(** Two tidy states with the same document are in the same place. *)
Lemma doc_same a b : valid a -> tidy a -> valid b -> tidy b -> before a = before b -> after a = after b -> same_place a b.
Proof.
  intros A1 A2 B1 B2 E1 E2. destruct (faithful a A1 A2) as (X1 & X2 & X3). destruct (faithful b B1 B2) as (Y1 & Y2 & Y3).
  unfold same_place. rewrite X1, X2, X3, Y1, Y2, Y3, E1, E2. auto.
Qed.

Lemma doc_yank t : valid t -> read_only (conf t) = false ->
  before (yank t) = before t ++ yank_text (kring t) /\ after (yank t) = after t.
Proof.
  intros H Ro. destruct (valid_at t H) as (P & l1 & l2 & Q & A). destruct (yank_at t P l1 l2 Q A Ro) as (P' & l1' & B & _ & E & _).
  rewrite (before_at _ _ _ _ _ A), (after_at _ _ _ _ _ A), (before_at _ _ _ _ _ B), (after_at _ _ _ _ _ B), E. auto.
Qed.

Lemma doc_kill_back t : valid t -> tidy t -> read_only (conf t) = false -> since_newline (before t) <> [] ->
  let t' := kill_word_backward t in
  exists w s, w <> [] /\ before t = before t' ++ w ++ s /\ after t' = after t /\ all_sep s /\
    (all_word w \/ (since_newline (before t') = [] /\ exists c, w = [c])) /\
    (since_newline (before t') <> [] -> exists d y, before t' = d ++ [y] /\ boundary y = true) /\
    kring t' = kill (kring t) (w ++ s) /\ valid t' /\ tidy t' /\ conf t' = conf t.
Proof.
  intros H T Ro Hn t'. destruct (valid_at t H) as (P & l1 & l2 & Q & A). pose proof T as T'. apply (tidy_at _ _ _ _ _ A) in T'.
  destruct T' as (C1 & C2 & C3 & C4).
  assert (S1 : since_newline (before t) = l1) by (rewrite (before_at _ _ _ _ _ A); apply since_bef; auto). rewrite S1 in Hn.
  destruct (kill_back_at t P l1 l2 Q A Ro Hn) as (a & w & s & E & Hw & Hs & W & Ba & B & Cf & K). fold t' in B, Cf, K.
  assert (Ca : ~ In nl a) by (rewrite E in C2; apply not_in_app in C2; tauto).
  assert (S2 : since_newline (before t') = a) by (rewrite (before_at _ _ _ _ _ B); apply since_bef; auto).
  exists w, s. rewrite S2. split; [auto|]. split; [rewrite (before_at _ _ _ _ _ A), (before_at _ _ _ _ _ B), E; unfold bef; now rewrite <- !app_assoc|].
  split; [now rewrite (after_at _ _ _ _ _ A), (after_at _ _ _ _ _ B)|]. split; [auto|]. split; [auto|]. split.
  - intros Hne. destruct (Ba Hne) as (a' & y & -> & Hy). exists (bef P a'), y. split; auto. rewrite (before_at _ _ _ _ _ B). apply bef_snoc.
  - split; [auto|]. destruct (kill_back_keeps t H). split; auto.
Qed.

Lemma to_newline_aft l2 Q : ~ In nl l2 -> to_newline (aft l2 Q) = l2.
Proof. intros H. unfold aft. destruct Q; cbn; [rewrite app_nil_r; now apply to_newline_all|now apply to_newline_notin]. Qed.

Lemma doc_kill_line t : valid t -> tidy t -> read_only (conf t) = false -> after t <> [] ->
  exists k rest, after t = k ++ rest /\ k <> [] /\
    (match to_newline (after t) with [] => k = [nl] | l => k = l end) /\
    value (kill_line t) = before t ++ rest /\ kring (kill_line t) = kill (kring t) k /\
    row (kill_line t) = 0%nat /\ col (kill_line t) = 0%nat.
Proof.
  intros H T Ro Hn. destruct (valid_at t H) as (P & l1 & l2 & Q & A). pose proof T as T'. apply (tidy_at _ _ _ _ _ A) in T'.
  destruct T' as (C1 & C2 & C3 & C4). pose proof (kill_line_at t P l1 l2 Q A Ro) as B.
  rewrite (after_at _ _ _ _ _ A) in *. rewrite to_newline_aft by auto. rewrite (before_at _ _ _ _ _ A).
  destruct l2 as [|x l2]; [destruct Q as [|l' Q]|].
  - cbn in Hn. congruence.
  - exists [nl], (aft l' Q). rewrite B. split; [reflexivity|]. split; [discriminate|]. split; [auto|]. split; [|auto].
    unfold value. cbn [with_ring with_buffer buf]. rewrite join_at. unfold bef, aft. now rewrite <- !app_assoc.
  - exists (x :: l2), (aft [] Q). rewrite B. split; [reflexivity|]. split; [discriminate|]. split; [auto|]. split; [|auto].
    unfold value. cbn [with_ring with_buffer buf]. rewrite join_at. unfold bef, aft. now rewrite <- !app_assoc.
Qed.

Lemma doc_kill_word t : valid t -> tidy t -> read_only (conf t) = false ->
  exists d rest, after t = d ++ rest /\ all_word d /\ ~ In nl d /\
    match rest with [] => True | c :: _ => boundary c = true \/ c = nl end /\
    value (kill_word t) = before t ++ rest /\
    (d = [] -> kill_word t = t) /\
    (d <> [] -> kring (kill_word t) = kill (kring t) d /\ row (kill_word t) = 0%nat /\ col (kill_word t) = 0%nat).
Proof.
  intros H T Ro. destruct (valid_at t H) as (P & l1 & l2 & Q & A). pose proof T as T'. apply (tidy_at _ _ _ _ _ A) in T'.
  destruct T' as (C1 & C2 & C3 & C4). destruct (kill_word_at t P l1 l2 Q A Ro) as (d & r & E & D & Br & K).
  exists d, (aft r Q). rewrite (after_at _ _ _ _ _ A). split; [subst l2; unfold aft; now rewrite <- app_assoc|]. split; [auto|].
  split; [subst l2; apply not_in_app in C3; tauto|]. split; [|split; [|split]].
  - unfold aft. destruct r; cbn; [|auto]. destruct Q; cbn; auto.
  - destruct d as [|x d].
    + rewrite K, value_split, (before_at _ _ _ _ _ A), (after_at _ _ _ _ _ A) by auto. now subst.
    + rewrite K. unfold value. cbn [with_ring with_buffer buf]. rewrite join_at, (before_at _ _ _ _ _ A). unfold bef, aft. now rewrite <- !app_assoc.
  - intros ->. exact K.
  - intros Hd. destruct d; [congruence|]. rewrite K. auto.
Qed.

(* ---------- motions on the document ---------- *)
Lemma doc_left t : valid t -> validator (conf t) = None ->
  (before t = [] /\ fst (move_left t) = t) \/
  (exists c, before t = before (fst (move_left t)) ++ [c] /\ after (fst (move_left t)) = c :: after t).
Proof.
  intros H Hv. destruct (valid_at t H) as (P & l1 & l2 & Q & A). destruct (move_left_at t P l1 l2 Q A Hv) as (X & Y & Z0).
  destruct (snoc_case l1) as [->|(l0 & x & ->)].
  - destruct (snoc_case P) as [->|(P0 & l0 & ->)].
    + left. rewrite (before_at _ _ _ _ _ A). auto.
    + right. specialize (Y P0 l0 eq_refl eq_refl). exists nl.
      rewrite (before_at _ _ _ _ _ A), (after_at _ _ _ _ _ A), (before_at _ _ _ _ _ Y), (after_at _ _ _ _ _ Y), bef_line. auto.
  - right. specialize (X l0 x eq_refl). exists x. rewrite (before_at _ _ _ _ _ A), (after_at _ _ _ _ _ A), (before_at _ _ _ _ _ X), (after_at _ _ _ _ _ X), bef_snoc. auto.
Qed.
Lemma doc_right t : valid t -> validator (conf t) = None ->
  (after t = [] /\ fst (move_right t) = t) \/
  (exists c, after t = c :: after (fst (move_right t)) /\ before (fst (move_right t)) = before t ++ [c]).
Proof.
  intros H Hv. destruct (valid_at t H) as (P & l1 & l2 & Q & A). pose proof (move_right_at t P l1 l2 Q A Hv) as X.
  destruct l2 as [|x l2]; [destruct Q as [|l' Q]|].
  - left. rewrite (after_at _ _ _ _ _ A). auto.
  - right. exists nl. rewrite (before_at _ _ _ _ _ A), (after_at _ _ _ _ _ A), (before_at _ _ _ _ _ X), (after_at _ _ _ _ _ X), bef_line. auto.
  - right. exists x. rewrite (before_at _ _ _ _ _ A), (after_at _ _ _ _ _ A), (before_at _ _ _ _ _ X), (after_at _ _ _ _ _ X), bef_snoc. auto.
Qed.
Lemma left_right_id t : valid t -> validator (conf t) = None -> before t <> [] -> same_place (fst (move_right (fst (move_left t)))) t.
Proof.
  intros H Hv Hn. destruct (valid_at t H) as (P & l1 & l2 & Q & A). destruct (move_left_at t P l1 l2 Q A Hv) as (X & Y & Z0).
  assert (Hv' : validator (conf (fst (move_left t))) = None).
  { rewrite stepped_conf with (t := t); auto. apply motions_stepped. cbn; auto. }
  rewrite (before_at _ _ _ _ _ A) in Hn. destruct (snoc_case l1) as [->|(l0 & x & ->)].
  - destruct (snoc_case P) as [->|(P0 & l0 & ->)]; [cbn in Hn; congruence|]. specialize (Y P0 l0 eq_refl eq_refl).
    pose proof (move_right_at _ _ _ _ _ Y Hv') as B. cbn in B. eapply at_same; eauto.
  - specialize (X l0 x eq_refl). pose proof (move_right_at _ _ _ _ _ X Hv') as B. cbn in B. eapply at_same; eauto.
Qed.
Lemma right_left_id t : valid t -> validator (conf t) = None -> after t <> [] -> same_place (fst (move_left (fst (move_right t)))) t.
Proof.
  intros H Hv Hn. destruct (valid_at t H) as (P & l1 & l2 & Q & A). pose proof (move_right_at t P l1 l2 Q A Hv) as X.
  assert (Hv' : validator (conf (fst (move_right t))) = None).
  { rewrite stepped_conf with (t := t); auto. apply motions_stepped. cbn; auto. }
  rewrite (after_at _ _ _ _ _ A) in Hn. destruct l2 as [|x l2]; [destruct Q as [|l' Q]; [cbn in Hn; congruence|]|].
  - destruct (move_left_at _ _ _ _ _ X Hv') as (_ & B & _). specialize (B P l1 eq_refl eq_refl). eapply at_same; eauto.
  - destruct (move_left_at _ _ _ _ _ X Hv') as (B & _ & _). specialize (B l1 x eq_refl). eapply at_same; eauto.
Qed.
Lemma move_cursor_none t r c : validator (conf t) = None -> row (fst (move_cursor t r c)) = r /\ col (fst (move_cursor t r c)) = c.
Proof.
  intros Hv. unfold move_cursor, go, allowed. rewrite Hv. destruct (_ && _) eqn:E; [|auto]. apply andb_true_iff in E as [A B].
  apply Nat.eqb_eq in A. apply Nat.eqb_eq in B. auto.
Qed.
Lemma move_cursor_at t P l1 l2 Q : validator (conf t) = None -> buf t = P ++ (l1 ++ l2) :: Q ->
  at_ (fst (move_cursor t (length P) (length l1))) P l1 l2 Q.
Proof.
  intros Hv E. destruct (move_cursor_none t (length P) (length l1) Hv) as [A B]. split; [|auto].
  unfold move_cursor, go. destruct (_ && _); [exact E|]. destruct (allowed _ _ _); exact E.
Qed.
Lemma doc_forward_word t : valid t -> tidy t -> validator (conf t) = None ->
  exists d s r, after t = d ++ s ++ r /\ all_word d /\ all_sep s /\ ~ In nl (d ++ s) /\
    match s ++ r with [] => True | c :: _ => boundary c = true \/ c = nl end /\
    match r with [] => True | c :: _ => boundary c = false end /\
    before (fst (forward_word t)) = before t ++ d ++ s /\ after (fst (forward_word t)) = r.
Proof.
  intros H T Hv. destruct (valid_at t H) as (P & l1 & l2 & Q & A). pose proof T as T'. apply (tidy_at _ _ _ _ _ A) in T'.
  destruct T' as (C1 & C2 & C3 & C4). destruct (forward_at l1 l2) as (d & s & r & E & F & D & S & R & R2).
  assert (B : at_ (fst (forward_word t)) P (l1 ++ d ++ s) r Q).
  { unfold forward_word. rewrite (cur_line_at _ _ _ _ _ A). destruct A as (Eb & Er & Ec). rewrite Er, Ec, F.
    replace (length l1 + length d + length s)%nat with (length (l1 ++ d ++ s)) by (rewrite !app_length; lia).
    apply move_cursor_at; auto. rewrite Eb, E, <- !app_assoc. reflexivity. }
  exists d, s, (aft r Q). rewrite (before_at _ _ _ _ _ A), (after_at _ _ _ _ _ A), (before_at _ _ _ _ _ B), (after_at _ _ _ _ _ B).
  split; [rewrite E; unfold aft; now rewrite <- !app_assoc|]. split; [auto|]. split; [auto|].
  split; [rewrite E in C3; rewrite app_assoc in C3; apply not_in_app in C3; tauto|]. split; [|split].
  - unfold aft. rewrite app_assoc. destruct (s ++ r) eqn:Esr; cbn; [destruct Q; cbn; auto|auto].
  - unfold aft. destruct r; cbn; [destruct Q; cbn; auto|auto].
  - split; auto. unfold bef. now rewrite <- !app_assoc.
Qed.
Lemma doc_backward_word t : valid t -> tidy t -> validator (conf t) = None -> since_newline (before t) <> [] ->
  let t' := fst (backward_word t) in
  exists w s, w <> [] /\ before t = before t' ++ w ++ s /\ after t' = w ++ s ++ after t /\ all_sep s /\
    (all_word w \/ (since_newline (before t') = [] /\ exists c, w = [c])) /\
    (since_newline (before t') <> [] -> exists d y, before t' = d ++ [y] /\ boundary y = true).
Proof.
  intros H T Hv Hn t'. destruct (valid_at t H) as (P & l1 & l2 & Q & A). pose proof T as T'. apply (tidy_at _ _ _ _ _ A) in T'.
  destruct T' as (C1 & C2 & C3 & C4).
  assert (S1 : since_newline (before t) = l1) by (rewrite (before_at _ _ _ _ _ A); apply since_bef; auto). rewrite S1 in Hn.
  destruct (backward_at l1 l2 Hn) as (a & w & s & E & Hw & Bc & Hs & W & Ba).
  assert (B : at_ t' P a (w ++ s ++ l2) Q).
  { subst t'. unfold backward_word. destruct (col t) eqn:Ec; [destruct A as (_ & _ & C); destruct l1; [congruence|rewrite C in Ec; discriminate]|].
    rewrite <- Ec. rewrite (cur_line_at _ _ _ _ _ A). destruct A as (Eb & Er & C). rewrite C, Er, Bc.
    apply move_cursor_at; auto. rewrite Eb, E, <- !app_assoc. reflexivity. }
  assert (Ca : ~ In nl a) by (rewrite E in C2; apply not_in_app in C2; tauto).
  assert (S2 : since_newline (before t') = a) by (rewrite (before_at _ _ _ _ _ B); apply since_bef; auto).
  exists w, s. rewrite S2. split; [auto|]. split; [rewrite (before_at _ _ _ _ _ A), (before_at _ _ _ _ _ B), E; unfold bef; now rewrite <- !app_assoc|].
  split; [rewrite (after_at _ _ _ _ _ A), (after_at _ _ _ _ _ B); unfold aft; now rewrite <- !app_assoc|]. split; [auto|]. split; [auto|].
  intros Hne. destruct (Ba Hne) as (a' & y & -> & Hy). exists (bef P a'), y. split; auto. rewrite (before_at _ _ _ _ _ B). apply bef_snoc.
Qed.
