(** C315, C316: what the callbacks of the text area (OnCursorMoved, OnBoundaryHit) are told. *)
From Verif Require Import Prelude Text TaModel TaSpec TaProofs.

(** The calls of the observer, in order, among the callbacks made. *)
Definition moves (evs : list event) : list (pos * pos) := flat_map (fun e => match e with EMoved f g => [(f, g)] | EBlocked _ => [] end) evs.
(** Keys pressed one after another; the callbacks made, in order. *)
Fixpoint presses (ks : list key) (t : ta) : ta * list event :=
  match ks with [] => (t, []) | k :: r => let (t1, e1) := handle k t in let (t2, e2) := presses r t1 in (t2, e1 ++ e2) end.
(** The moves form a path from p to q: each starts where the previous one ended and goes somewhere else. *)
Fixpoint path (p : pos) (ms : list (pos * pos)) (q : pos) : Prop :=
  match ms with [] => p = q | (f, g) :: r => f = p /\ g <> f /\ path g r q end.

Lemma moves_app a b : moves (a ++ b) = moves a ++ moves b.
Proof. apply flat_map_app. Qed.
Lemma path_app p a q b r : path p a q -> path q b r -> path p (a ++ b) r.
Proof. revert p. induction a as [|[f g] a IH]; cbn; intros p H1 H2; [now subst|]. destruct H1 as (A & B & C). auto. Qed.

(** One motion: at most one callback; silence of the observer means no move, otherwise it is told from where to where. *)
Definition told (t : ta) (x : ta * list event) : Prop :=
  (length (snd x) <= 1)%nat /\
  ((fst x = t /\ moves (snd x) = []) \/ (snd x = [EMoved (at_pos t) (at_pos (fst x))] /\ at_pos (fst x) <> at_pos t)).
Lemma go_told t r c : (r <> row t \/ c <> col t) -> told t (go t r c).
Proof.
  intros H. unfold go, told. destruct (allowed _ _ _); cbn [fst snd length moves flat_map app]; (split; [lia|]); [right|left; auto].
  split; [reflexivity|]. unfold at_pos. cbn [row col with_cursor]. intros E. apply pair_equal_spec in E as [E1 E2]. destruct H; lia.
Qed.
Lemma stay_told t e : (length e <= 1)%nat -> moves e = [] -> told t (t, e).
Proof. intros A B. split; cbn [fst snd]; auto. Qed.
Lemma move_cursor_told t r c : told t (move_cursor t r c).
Proof.
  unfold move_cursor. destruct ((row t =? r)%nat && (col t =? c)%nat) eqn:E; [apply stay_told; cbn; auto|]. apply go_told.
  apply andb_false_iff in E as [E|E]; apply Nat.eqb_neq in E; auto.
Qed.
Lemma edge_told t p : told t (edge t p).
Proof. unfold edge. destruct (validator _) as [v|]; [destruct (v _ _)|]; apply stay_told; cbn; auto. Qed.
Lemma line_start_told t : told t (move_line_start t).
Proof.
  unfold move_line_start. destruct (validator _); [|apply move_cursor_told]. destruct (first_ok _ _ _); [apply move_cursor_told|]. apply stay_told; cbn; auto.
Qed.
Lemma motions_told t x : In x (motions t) -> told t x.
Proof.
  intros [<-|[<-|[<-|[<-|[<-|[<-|[<-|[<-|[<-|[<-|[]]]]]]]]]]];
    unfold move_line_end, move_buffer_start, move_buffer_end, forward_word; try apply move_cursor_told; try apply line_start_told.
  - unfold move_left. destruct (col t) eqn:C; [destruct (row t) eqn:R|]; [apply stay_told; cbn; auto|apply go_told; lia|apply go_told; lia].
  - unfold move_right. destruct (_ <? _)%nat; [apply go_told; lia|]. destruct (_ <? _)%nat; [apply go_told; lia|apply stay_told; cbn; auto].
  - unfold move_up. destruct (row t) eqn:R; [apply edge_told|apply go_told; lia].
  - unfold move_down. destruct (_ <=? _)%nat; [apply edge_told|apply go_told; lia].
  - unfold backward_word. destruct (col t); [apply stay_told; cbn; auto|apply move_cursor_told].
Qed.

(* ---------- C315 ---------- *)
(** Movement keys only: the observer's calls form a path from the first cursor position to the last one; the cursor never
    moves behind the observer's back and the observer is never called for a move that did not happen. *)
Theorem C315_movement_history : forall ks t, (forall k, In k ks -> motion k = true) ->
  let r := presses ks t in path (at_pos t) (moves (snd r)) (at_pos (fst r)).
Proof.
  induction ks as [|k ks IH]; intros t H r; [reflexivity|]. subst r. cbn [presses].
  destruct (motions_told t _ (motion_handle k t (H k (or_introl eq_refl)))) as [_ T]. destruct (handle k t) as [t1 e1]. cbn [fst snd] in T.
  specialize (IH t1 (fun k' Hk => H k' (or_intror Hk))). destruct (presses ks t1) as [t2 e2]. cbn [fst snd] in *. rewrite moves_app.
  apply path_app with (at_pos t1); [|exact IH]. destruct T as [[-> ->]|[-> N]]; [reflexivity|]. cbn. auto.
Qed.
(** Any key at all: at most one callback is made, and if it is the observer's, it starts at the cursor and goes elsewhere. *)
Theorem C315_at_most_one_callback : forall k t, let evs := snd (handle k t) in
  evs = [] \/ (exists p, evs = [EBlocked p]) \/ (exists p, evs = [EMoved (at_pos t) p] /\ p <> at_pos t).
Proof.
  assert (T : forall t x, told t x -> snd x = [] \/ (exists p, snd x = [EBlocked p]) \/ (exists p, snd x = [EMoved (at_pos t) p] /\ p <> at_pos t)).
  { intros t x [L [[_ M]|[M N]]]; [|right; right; eexists; eauto]. destruct (snd x) as [|[f g|p] [|? ?]]; cbn in L, M; try lia; try discriminate M; [auto|right; left; eexists; reflexivity]. }
  assert (Q : forall t, @nil event = [] \/ (exists p, @nil event = [EBlocked p]) \/ (exists p, @nil event = [EMoved (at_pos t) p] /\ p <> at_pos t)) by auto.
  assert (M : forall t x, In x (motions t) -> snd x = [] \/ (exists p, snd x = [EBlocked p]) \/ (exists p, snd x = [EMoved (at_pos t) p] /\ p <> at_pos t)) by (intros; apply T, motions_told; auto).
  assert (U : forall t, snd (let (t', ev) := move_line_start t in (kill_line t', ev)) = snd (move_line_start t)) by (intros t; destruct (move_line_start t); reflexivity).
  assert (B : forall t, snd (backspace t) = [] \/ exists p, snd (backspace t) = [EBlocked p]).
  { intros t. unfold backspace. destruct (read_only _); [auto|]. destruct (col t), (row t); [auto|..]; destruct (allowed _ _ _); cbn [snd]; eauto. }
  intros k t evs. subst evs. destruct (motion k) eqn:Mk; [apply M, motion_handle, Mk|].
  destruct k as [c a kt0]. unfold motion, is_ctrl_in, handle, on_ctrl, on_alt, on_plain, quiet_ev in *. cbn [k_ctrl k_alt k_t existsb] in *.
  destruct c, a, kt0; cbn [andb orb negb] in *; try discriminate Mk; cbn [snd]; try apply Q.
  all: repeat match goal with
       | |- context [if ?b then _ else _] => destruct b eqn:?
       end; cbn [negb andb orb] in Mk; try discriminate Mk; cbn [snd]; try apply Q.
  all: try (destruct (B t) as [->|[p ->]]; [apply Q|right; left; eexists; reflexivity]).
  all: try (rewrite U; apply T, line_start_told).
  all: apply T, motions_told; unfold motions; cbn [In]; auto 20.
Qed.
(** A movement key that tells the observer nothing leaves the cursor where it was. *)
Theorem C315_silence_means_no_move : forall k t, motion k = true -> moves (snd (handle k t)) = [] -> fst (handle k t) = t.
Proof. intros k t M E. destruct (motions_told t _ (motion_handle k t M)) as [_ [[A _]|[A _]]]; [exact A|]. rewrite A in E. discriminate E. Qed.

Definition two_lines : ta := apply_all [OSetValue [97; 98; 10; 99; 100]; OSetCursor 0 1] new_ta.
Example C315_ex : moves (snd (presses [Key false false KDown; Key false false KEnd; Key false false KEnd; Key true false (KRune 112); Key false false KHome] two_lines))
  = [((0, 1), (1, 1)); ((1, 1), (1, 2)); ((1, 2), (0, 2)); ((0, 2), (0, 0))] /\
  (forall k, In k [Key false false KDown; Key false false KEnd; Key false false KEnd; Key true false (KRune 112); Key false false KHome] -> motion k = true).
Proof. split; [reflexivity|]. intros k H. repeat destruct H as [<-|H]; try reflexivity. destruct H. Qed.

(* ---------- C316 ---------- *)
(** Full statement: the observer is told whenever a key press moves the cursor (to another line, say, to highlight it anew). *)
Definition C316_statement : Prop := forall os k, let t := apply_all os new_ta in
  at_pos (fst (handle k t)) <> at_pos t -> moves (snd (handle k t)) = [(at_pos t, at_pos (fst (handle k t)))].
(** Enter moves the cursor to the next line, a typed letter to the next column: no callback is made. *)
Theorem C316_enter_unobserved_refuted : ~ C316_statement.
Proof. intros H. specialize (H [] (Key false false KEnter)). cbn in H. assert (X : (1, 0) <> (0, 0)) by discriminate. specialize (H X). discriminate H. Qed.
(** In fact no editing key ever tells the observer anything, whatever it does to the cursor; the one exception is Ctrl-U, which first goes Home. *)
Theorem C316_editing_keys_unobserved : forall k t, motion k = false -> is_ctrl_in [117] k = false -> moves (snd (handle k t)) = [].
Proof.
  assert (B : forall t, moves (snd (backspace t)) = []).
  { intros t. unfold backspace. destruct (read_only _); [auto|]. destruct (col t), (row t); [auto|..]; destruct (allowed _ _ _); reflexivity. }
  intros [c a kt0] t Mk Mu. unfold motion, is_ctrl_in, handle, on_ctrl, on_alt, on_plain, quiet_ev in *. cbn [k_ctrl k_alt k_t existsb] in *.
  destruct c, a, kt0; cbn [andb orb negb] in *; try discriminate Mk; cbn [snd]; try reflexivity; try apply B.
  all: repeat match goal with
       | |- context [if ?b then _ else _] => destruct b eqn:?
       end; cbn [negb andb orb] in Mk, Mu; try discriminate Mk; try discriminate Mu; cbn [snd]; try reflexivity; try apply B.
Qed.

Print Assumptions C315_movement_history. Print Assumptions C315_at_most_one_callback. Print Assumptions C315_silence_means_no_move. Print Assumptions C316_enter_unobserved_refuted.
Print Assumptions C316_editing_keys_unobserved.
