(** C343: what the OnBoundaryHit callback is told; C344: the settings of a new text area. *)
From Verif Require Import Prelude Text TaModel TaSpec TaProofs TaKeysProps.
Set Default Proof Using "Type".

(* ---------- specification ---------- *)
(** The positions the boundary handler is called with. *)
Definition refusals (evs : list event) : list pos := flat_map (fun e => match e with EBlocked p => [p] | EMoved _ _ => [] end) evs.
Definition up_key (k : key) : bool := is_ctrl_in [112] k || (negb (k_ctrl k) && negb (k_alt k) && match k_t k with KUp => true | _ => false end).
Definition down_key (k : key) : bool := is_ctrl_in [110] k || (negb (k_ctrl k) && negb (k_alt k) && match k_t k with KDown => true | _ => false end).
Definition backspace_key (k : key) : bool := is_ctrl_in [104] k || (negb (k_ctrl k) && negb (k_alt k) && match k_t k with KBackspace => true | _ => false end).
Definition kill_to_start (k : key) : bool := is_ctrl_in [117] k.
Definition same_pos (p q : pos) : bool := (fst p =? fst q) && (snd p =? snd q).
(** Where a movement key tries to go: where it goes in the same area without a validator, or one
    row beyond the text when Up is pressed on the first line or Down on the last. *)
Definition attempt (k : key) (t : ta) : option pos :=
  let '(r, c) := at_pos t in
  let target := at_pos (fst (handle k (unfenced t))) in
  if negb (same_pos target (r, c)) then Some target
  else if up_key k then Some (r - 1, c)
  else if down_key k then Some (r + 1, c)
  else None.

(* ---------- proofs ---------- *)
Lemma same_pos_refl p : same_pos p p = true.
Proof. unfold same_pos. lia. Qed.
Lemma same_pos_eq p q : same_pos p q = true -> p = q.
Proof. destruct p, q. unfold same_pos. cbn. intros. f_equal; lia. Qed.
(** What one motion tells. *)
Definition tells (t : ta) (x : ta * list event) (o : option pos) : Prop :=
  forall v, validator (conf t) = Some v -> refusals (snd x) = match o with Some p => if v (at_pos t) p then [] else [p] | None => [] end.
Lemma go_tells t r c : tells t (go t r c) (Some (zpos r c)).
Proof. intros v Hv. unfold go, allowed. rewrite Hv. change (zpos (row t) (col t)) with (at_pos t). destruct (v _ _); reflexivity. Qed.
Lemma move_cursor_tells t r c : tells t (move_cursor t r c) (if same_pos (zpos r c) (at_pos t) then None else Some (zpos r c)).
Proof.
  unfold move_cursor, same_pos, at_pos, zpos. cbn [fst snd].
  destruct ((row t =? r)%nat && (col t =? c)%nat) eqn:E;
  [replace ((Z.of_nat r =? Z.of_nat (row t)) && (Z.of_nat c =? Z.of_nat (col t))) with true by lia; intros v Hv; reflexivity|
   replace ((Z.of_nat r =? Z.of_nat (row t)) && (Z.of_nat c =? Z.of_nat (col t))) with false by lia; apply go_tells].
Qed.
Lemma edge_tells t p : tells t (edge t p) (Some p).
Proof. intros v Hv. unfold edge. rewrite Hv. change (zpos (row t) (col t)) with (at_pos t). destruct (v _ _); reflexivity. Qed.
Lemma free_cursor t r c : at_pos (fst (move_cursor (unfenced t) r c)) = zpos r c.
Proof.
  unfold move_cursor. cbn [row col unfenced set_cfg]. destruct ((row t =? r)%nat && (col t =? c)%nat) eqn:E; cbn [fst].
  - unfold at_pos, zpos. cbn [row col unfenced set_cfg]. f_equal; lia.
  - reflexivity.
Qed.
(** The keys and their motions, with what makes Up and Down special. *)
Definition other_funs : list (ta -> ta * list event) :=
  [move_left; move_right; move_line_end; move_buffer_start; move_buffer_end; forward_word; backward_word].
Lemma key_kinds k : motion k = true -> home_key k = false ->
  (up_key k = true /\ forall t, handle k t = move_up t) \/
  (up_key k = false /\ down_key k = true /\ forall t, handle k t = move_down t) \/
  (up_key k = false /\ down_key k = false /\ exists f, In f other_funs /\ forall t, handle k t = f t).
Proof.
  intros M Hh. destruct k as [c a kt0]. unfold motion, home_key, up_key, down_key, is_ctrl_in in *. cbn [k_ctrl k_alt k_t existsb] in *.
  unfold handle, on_ctrl, on_alt, on_plain. cbn [k_ctrl k_alt k_t].
  assert (D : forall x y r, is_letter x r = true -> 97 <= x <= 122 -> 97 <= y <= 122 -> x <> y -> is_letter y r = false) by (unfold is_letter; intros; lia).
  destruct c, a, kt0; cbn [andb orb negb] in *; try discriminate.
  all: repeat match goal with
       | |- context [match (if ?b then _ else _) with _ => _ end] => let E := fresh "E" in destruct b eqn:E
       | |- context [if ?b then _ else _] => let E := fresh "E" in destruct b eqn:E
       end; cbn [negb andb orb] in *; try discriminate.
  all: try (left; split; [reflexivity|intros; reflexivity]).
  all: try (right; left; split; [reflexivity|split; [reflexivity|intros; reflexivity]]).
  all: try (right; right; split; [reflexivity|split; [reflexivity|eexists; split; [|reflexivity]; unfold other_funs; cbn [In]; auto 12; fail]]).
  all: repeat match goal with E : is_letter ?x ?r = true |- _ => pose proof (D x 112 r E); pose proof (D x 110 r E); revert E end; intros.
  all: repeat match goal with H : _ -> _ -> _ -> _ = false |- _ => first [specialize (H ltac:(lia) ltac:(lia) ltac:(lia))|clear H] end.
  all: repeat match goal with H : is_letter _ _ = _ |- _ => rewrite H end; cbn [orb andb negb].
  all: try (left; split; [reflexivity|intros; reflexivity]).
  all: try (right; left; split; [reflexivity|split; [reflexivity|intros; reflexivity]]).
  all: try (right; right; split; [reflexivity|split; [reflexivity|eexists; split; [|reflexivity]; unfold other_funs; cbn [In]; auto 12; fail]]).
Qed.
Lemma other_tells t f : In f other_funs ->
  tells t (f t) (let target := at_pos (fst (f (unfenced t))) in if negb (same_pos target (at_pos t)) then Some target else None).
Proof.
  cbv zeta.
  assert (G : forall r c, (Z.of_nat r, Z.of_nat c) <> (Z.of_nat (row t), Z.of_nat (col t)) -> tells t (go t r c) (if negb (same_pos (at_pos (fst (go (unfenced t) r c))) (at_pos t)) then Some (at_pos (fst (go (unfenced t) r c))) else None)).
  { intros r c N. rewrite go_free. change (at_pos (with_cursor (unfenced t) r c)) with (zpos r c).
    destruct (same_pos (zpos r c) (at_pos t)) eqn:E; [apply same_pos_eq in E; contradiction|]. apply go_tells. }
  assert (Q : forall e : list event, tells t (t, []) (if negb (same_pos (at_pos (fst (unfenced t, e))) (at_pos t)) then Some (at_pos (fst (unfenced t, e))) else None)).
  { intros e. change (at_pos (fst (unfenced t, e))) with (at_pos t). rewrite same_pos_refl. intros v Hv. reflexivity. }
  assert (M : forall r c, tells t (move_cursor t r c) (if negb (same_pos (at_pos (fst (move_cursor (unfenced t) r c))) (at_pos t)) then Some (at_pos (fst (move_cursor (unfenced t) r c))) else None)).
  { intros r c. rewrite free_cursor. pose proof (move_cursor_tells t r c) as X. destruct (same_pos _ _); exact X. }
  intros [<-|[<-|[<-|[<-|[<-|[<-|[<-|[]]]]]]]].
  - unfold move_left. cbn [row col buf unfenced set_cfg]. destruct (col t) eqn:C; [destruct (row t) eqn:R|]; [apply Q|apply G; rewrite ?R, ?C; intros X; assert (X1 := f_equal fst X); assert (X2 := f_equal snd X); cbn [fst snd] in X1, X2; lia..].
  - unfold move_right, cur_line. cbn [row col buf unfenced set_cfg]. destruct (_ <? _)%nat; [apply G; intros X; assert (X1 := f_equal fst X); assert (X2 := f_equal snd X); cbn [fst snd] in X1, X2; lia|]. destruct (_ <? _)%nat; [apply G; intros X; assert (X1 := f_equal fst X); assert (X2 := f_equal snd X); cbn [fst snd] in X1, X2; lia|apply Q].
  - apply M.
  - apply M.
  - apply M.
  - apply M.
  - unfold backward_word. cbn [row col buf unfenced set_cfg]. destruct (col t); [apply Q|apply M].
Qed.

(** A movement key other than Home: the handler is called exactly once, with the attempted position,
    if there is one and the validator refuses it, and otherwise not at all. *)
Theorem C343_told_of_what_is_refused : forall k t v, valid t -> motion k = true -> home_key k = false -> validator (conf t) = Some v ->
  refusals (snd (handle k t)) = match attempt k t with Some p => if v (at_pos t) p then [] else [p] | None => [] end.
Proof.
  intros k t v V M Hh Hv. unfold attempt. destruct (at_pos t) as [r0 c0] eqn:AP. rewrite <- AP.
  destruct (key_kinds k M Hh) as [(U & E)|[(U & Dn & E)|(U & Dn & f & Hf & E)]]; rewrite !E, ?U, ?Dn.
  - unfold move_up. cbn [row col buf unfenced set_cfg]. destruct (row t) as [|r] eqn:R.
    + change (at_pos (fst (edge (unfenced t) (-1, Z.of_nat (col t))))) with (at_pos t). rewrite same_pos_refl. cbn [negb].
      unfold at_pos in AP. rewrite R in AP. injection AP as <- <-.
      rewrite (edge_tells t _ v Hv). reflexivity.
    + rewrite go_free. change (at_pos (with_cursor (unfenced t) r (Nat.min (col t) (length (get_line (buf t) r))))) with (zpos r (Nat.min (col t) (length (get_line (buf t) r)))).
      destruct (same_pos _ _) eqn:S.
      * apply same_pos_eq in S. exfalso. unfold at_pos, zpos in S. rewrite R in S. assert (X1 := f_equal fst S). cbn [fst] in X1. lia.
      * cbn [negb]. rewrite (go_tells t _ _ v Hv). reflexivity.
  - unfold move_down. cbn [row col buf unfenced set_cfg]. destruct (_ <=? _)%nat eqn:L.
    + change (at_pos (fst (edge (unfenced t) (Z.of_nat (row t) + 1, Z.of_nat (col t))))) with (at_pos t). rewrite same_pos_refl. cbn [negb].
      unfold at_pos in AP. injection AP as <- <-. rewrite (edge_tells t _ v Hv). reflexivity.
    + rewrite go_free. set (c := Nat.min _ _). change (at_pos (with_cursor (unfenced t) (S (row t)) c)) with (zpos (S (row t)) c).
      destruct (same_pos _ _) eqn:S.
      * apply same_pos_eq in S. exfalso. unfold at_pos, zpos in S. assert (X1 := f_equal fst S). cbn [fst] in X1. lia.
      * cbn [negb]. rewrite (go_tells t _ _ v Hv). reflexivity.
  - rewrite (other_tells t f Hf v Hv). cbv zeta. destruct (same_pos _ _); reflexivity.
Qed.

Lemma home_funs k : motion k = true -> home_key k = true -> forall t, handle k t = move_line_start t.
Proof.
  intros M Hh t. destruct k as [c a kt0]. unfold home_key, is_ctrl_in in *. cbn [k_ctrl k_alt k_t existsb] in *.
  unfold handle, on_ctrl, on_alt, on_plain. cbn [k_ctrl k_alt k_t].
  destruct c, a, kt0; cbn [andb orb negb] in *; try discriminate; try reflexivity;
  rewrite !orb_false_r in Hh; rewrite Hh; reflexivity.
Qed.
Lemma first_ok_none t n : forall c, first_ok t c n = None <-> forall d, (c <= d < c + n)%nat -> allowed t (at_pos t) (zpos (row t) d) = false.
Proof.
  induction n as [|n IH]; intros c; cbn [first_ok].
  - split; [intros _ d Hd; lia|reflexivity].
  - change (zpos (row t) (col t)) with (at_pos t). destruct (allowed t (at_pos t) (zpos (row t) c)) eqn:A.
    + split; [discriminate|]. intros H. rewrite H in A by lia. discriminate.
    + rewrite IH. split; intros H d Hd.
      * destruct (Nat.eq_dec d c) as [->|]; [exact A|apply H; lia].
      * apply H. lia.
Qed.
Lemma first_ok_ok t n : forall c d, first_ok t c n = Some d -> allowed t (at_pos t) (zpos (row t) d) = true.
Proof.
  induction n as [|n IH]; intros c d; cbn [first_ok]; [discriminate|].
  change (zpos (row t) (col t)) with (at_pos t). destruct (allowed t (at_pos t) (zpos (row t) c)) eqn:A; [intros H; injection H as <-; exact A|apply IH].
Qed.
(** Home: the handler is called only if the validator refuses every column of the line, and then
    once, with the line's first column, and nothing changes. *)
Theorem C343_home : forall k t v, motion k = true -> home_key k = true -> validator (conf t) = Some v ->
  let line := nth (row t) (buf t) [] in
  ((exists c, (c <= length line)%nat /\ v (at_pos t) (fst (at_pos t), Z.of_nat c) = true) -> refusals (snd (handle k t)) = []) /\
  ((forall c, (c <= length line)%nat -> v (at_pos t) (fst (at_pos t), Z.of_nat c) = false) -> handle k t = (t, [EBlocked (fst (at_pos t), 0)])).
Proof.
  intros k t v M Hh Hv line. rewrite (home_funs k M Hh). unfold move_line_start. rewrite Hv.
  assert (A : forall p, allowed t (at_pos t) p = v (at_pos t) p) by (intros p; unfold allowed; rewrite Hv; reflexivity).
  split.
  - intros (c & Hc & Vc). destruct (first_ok t 0 (S (length (cur_line t)))) as [d|] eqn:F.
    + apply first_ok_ok in F. unfold move_cursor. destruct (_ && _); [reflexivity|]. unfold go. change (zpos (row t) (col t)) with (at_pos t). rewrite F. reflexivity.
    + exfalso. rewrite first_ok_none in F. specialize (F c). rewrite A in F. unfold zpos in F. unfold at_pos in Vc at 2. cbn [fst] in Vc. rewrite Vc in F.
      assert (false = true); [symmetry; apply F|discriminate]. unfold cur_line, get_line. unfold line in Hc. lia.
  - intros Hn. replace (first_ok t 0 (S (length (cur_line t)))) with (@None nat).
    + reflexivity.
    + symmetry. apply first_ok_none. intros d Hd. rewrite A. apply (Hn d). unfold cur_line, get_line in Hd. unfold line. lia.
Qed.

Lemma no_validator_go t r c : validator (conf t) = None -> refusals (snd (go t r c)) = [].
Proof. intros Hv. unfold go, allowed. rewrite Hv. reflexivity. Qed.
Lemma no_validator_move t r c : validator (conf t) = None -> refusals (snd (move_cursor t r c)) = [].
Proof. intros Hv. unfold move_cursor. destruct (_ && _); [reflexivity|apply no_validator_go; auto]. Qed.
(** Without a validator the handler is never called. *)
Theorem C343_no_validator : forall k t, validator (conf t) = None -> refusals (snd (handle k t)) = [].
Proof.
  intros k t Hv.
  assert (H1 : refusals (snd (move_left t)) = []) by (unfold move_left; destruct (col t); [destruct (row t)|]; auto using no_validator_go).
  assert (H2 : refusals (snd (move_right t)) = []) by (unfold move_right; destruct (_ <? _)%nat; [|destruct (_ <? _)%nat]; auto using no_validator_go).
  assert (H3 : refusals (snd (move_up t)) = []) by (unfold move_up, edge; rewrite Hv; destruct (row t); auto using no_validator_go).
  assert (H4 : refusals (snd (move_down t)) = []) by (unfold move_down, edge; rewrite Hv; destruct (_ <=? _)%nat; auto using no_validator_go).
  assert (H5 : refusals (snd (move_line_start t)) = []) by (unfold move_line_start; rewrite Hv; auto using no_validator_move).
  assert (H6 : refusals (snd (move_line_end t)) = []) by (unfold move_line_end; auto using no_validator_move).
  assert (H7 : refusals (snd (move_buffer_start t)) = []) by (unfold move_buffer_start; auto using no_validator_move).
  assert (H8 : refusals (snd (move_buffer_end t)) = []) by (unfold move_buffer_end; auto using no_validator_move).
  assert (H9 : refusals (snd (forward_word t)) = []) by (unfold forward_word; auto using no_validator_move).
  assert (H10 : refusals (snd (backward_word t)) = []) by (unfold backward_word; destruct (col t); auto using no_validator_move).
  assert (H11 : refusals (snd (backspace t)) = []) by (unfold backspace, allowed; rewrite Hv; destruct (read_only _); [|destruct (col t); [destruct (row t)|]]; reflexivity).
  destruct k as [c a kt0]. unfold handle, on_ctrl, on_alt, on_plain. cbn [k_ctrl k_alt k_t].
  destruct c, a, kt0; cbn [orb]; auto;
  repeat match goal with
       | |- context [match (if ?b then _ else _) with _ => _ end] => destruct b
       | |- context [let (_, _) := move_line_start t in _] => destruct (move_line_start t); cbn [snd] in *
       end; auto.
Qed.

(** Backspace: called exactly once, with the position before the cursor, if the text may be changed,
    there is something before the cursor and the validator refuses that position. *)
Theorem C343_backspace : forall k t v, backspace_key k = true -> validator (conf t) = Some v ->
  let target := at_pos (fst (handle (plain KLeft) (unfenced t))) in
  refusals (snd (handle k t)) = if negb (read_only (conf t)) && negb (same_pos target (at_pos t)) && negb (v (at_pos t) target) then [target] else [].
Proof.
  intros k t v Hk Hv target. assert (E : handle k t = backspace t).
  { destruct k as [c a kt0]. unfold backspace_key, is_ctrl_in in Hk. cbn [k_ctrl k_alt k_t existsb] in Hk.
    unfold handle, on_ctrl, on_alt, on_plain. cbn [k_ctrl k_alt k_t].
    assert (D : forall x y r, is_letter x r = true -> 97 <= x <= 122 -> 97 <= y <= 122 -> x <> y -> is_letter y r = false) by (unfold is_letter; intros; lia).
    destruct c, a, kt0; cbn [andb orb negb] in *; try discriminate; try reflexivity; rewrite !orb_false_r in Hk;
    rewrite (D _ 97 _ Hk), (D _ 101 _ Hk), (D _ 112 _ Hk), (D _ 110 _ Hk), (D _ 102 _ Hk), (D _ 98 _ Hk), (D _ 107 _ Hk), (D _ 117 _ Hk), (D _ 119 _ Hk), (D _ 121 _ Hk), (D _ 100 _ Hk), Hk by lia; reflexivity. }
  rewrite E. subst target. change (handle (plain KLeft) (unfenced t)) with (move_left (unfenced t)).
  unfold backspace, move_left, allowed. rewrite Hv. cbn [row col buf unfenced set_cfg]. destruct (read_only (conf t)); cbn [negb andb]; [reflexivity|].
  assert (S : forall r c, zpos r c <> at_pos t -> same_pos (zpos r c) (at_pos t) = false) by (intros r c N; destruct (same_pos _ _) eqn:S; auto; apply same_pos_eq in S; contradiction).
  destruct (col t) as [|c] eqn:C; [destruct (row t) as [|r] eqn:R|].
  - change (at_pos (fst (unfenced t, @nil event))) with (at_pos t). rewrite same_pos_refl. reflexivity.
  - rewrite go_free. change (at_pos (with_cursor (unfenced t) r (length (get_line (buf t) r)))) with (zpos r (length (get_line (buf t) r))).
    rewrite S by (unfold zpos, at_pos; rewrite R; intros X; assert (X1 := f_equal fst X); assert (X2 := f_equal snd X); cbn [fst snd] in X1, X2; lia). unfold at_pos. rewrite R, C. cbn [negb andb]. fold (zpos (Datatypes.S r) 0). destruct (v _ _); reflexivity.
  - rewrite go_free. change (at_pos (with_cursor (unfenced t) (row t) c)) with (zpos (row t) c).
    rewrite S by (unfold zpos, at_pos; rewrite C; intros X; assert (X1 := f_equal fst X); assert (X2 := f_equal snd X); cbn [fst snd] in X1, X2; lia). unfold at_pos. rewrite C. cbn [negb andb]. fold (zpos (row t) (Datatypes.S c)). destruct (v _ _); reflexivity.
Qed.
(** Ctrl-U tells what Home tells; every other key that is neither a movement nor Backspace tells nothing. *)
Theorem C343_other_keys : forall k t, motion k = false -> backspace_key k = false ->
  snd (handle k t) = if kill_to_start k then snd (handle (plain KHome) t) else [].
Proof.
  intros k t M Hb. destruct k as [c a kt0]. change (handle (plain KHome) t) with (move_line_start t).
  unfold motion, backspace_key, kill_to_start, is_ctrl_in in *. cbn [k_ctrl k_alt k_t existsb] in *.
  unfold handle, on_ctrl, on_alt, on_plain. cbn [k_ctrl k_alt k_t].
  assert (D : forall x y r, is_letter x r = true -> 97 <= x <= 122 -> 97 <= y <= 122 -> x <> y -> is_letter y r = false) by (unfold is_letter; intros; lia).
  destruct c, a, kt0; cbn [andb orb negb] in *; try discriminate; try reflexivity.
  all: rewrite ?orb_false_r in *.
  all: repeat match goal with
       | |- context [match (if ?b then _ else _) with _ => _ end] => let E := fresh "E" in destruct b eqn:E; cbn [orb andb negb] in *; rewrite ?orb_true_r, ?orb_false_r in *; try discriminate
       end.
  all: repeat match goal with E1 : is_letter ?x ?r = true |- context [is_letter 117 ?r] => first [rewrite E1|rewrite (D x 117 r E1) by lia] end.
  all: repeat match goal with E1 : is_letter 117 ?r = false |- _ => rewrite E1 end.
  all: try reflexivity.
  all: try (destruct (move_line_start t); reflexivity).
Qed.

(* ---------- C344 ---------- *)
(** A new text area: empty, cursor at the start, 80 by 24, no limits, editable, no validator. *)
Theorem C344_starts_as_documented : value new_ta = [] /\ at_pos new_ta = (0, 0) /\ valid new_ta /\
  width (conf new_ta) = 80 /\ height (conf new_ta) = 24 /\ wrap (conf new_ta) = false /\
  max_lines (conf new_ta) = 0 /\ max_chars (conf new_ta) = 0 /\ read_only (conf new_ta) = false /\ validator (conf new_ta) = None /\
  rmax (kring new_ta) = 10%nat.
Proof. assert (valid new_ta) by (apply Valid; cbn; lia). repeat split; try apply H; reflexivity. Qed.
(* ---------- C345: the documented reasons "already at top" and "already at bottom" ---------- *)
(** Full statement: Up on the first line and Down on the last always tell the handler. It is false
    without a validator (and with one that accepts the row outside the text). *)
Theorem C345_edges_are_told_refuted : exists t, valid t /\ row t = 0%nat /\ length (buf t) = 1%nat /\
  (validator (conf t) = None \/ exists v, validator (conf t) = Some v /\ v (at_pos t) (-1, snd (at_pos t)) = true) /\
  snd (handle (plain KUp) t) = [] /\ snd (handle (plain KDown) t) = [].
Proof. exists new_ta. split; [apply Valid; cbn; lia|]. repeat split. left. reflexivity. Qed.
(** With a validator that refuses the row outside the text they do. *)
Theorem C345_edges_are_told_partial : forall k t v, valid t -> validator (conf t) = Some v ->
  (up_key k = true -> row t = 0%nat -> v (at_pos t) (-1, snd (at_pos t)) = false -> handle k t = (t, [EBlocked (-1, snd (at_pos t))])) /\
  (up_key k = false -> down_key k = true -> S (row t) = length (buf t) -> v (at_pos t) (fst (at_pos t) + 1, snd (at_pos t)) = false ->
   handle k t = (t, [EBlocked (fst (at_pos t) + 1, snd (at_pos t))])).
Proof.
  intros k t v V Hv.
  assert (MU : forall k, up_key k = true \/ down_key k = true -> motion k = true /\ home_key k = false).
  { intros [c a kt0]. unfold up_key, down_key, motion, home_key, is_ctrl_in. cbn [k_ctrl k_alt k_t existsb].
    assert (D : forall x y r, is_letter x r = true -> 97 <= x <= 122 -> 97 <= y <= 122 -> x <> y -> is_letter y r = false) by (unfold is_letter; intros; lia).
    destruct c, a, kt0; cbn [andb orb negb]; intros [X|X]; try discriminate; rewrite ?orb_false_r in *; try (split; reflexivity);
    rewrite (D _ 97 _ X), X by lia; cbn [orb]; rewrite ?orb_true_r; split; reflexivity. }
  split.
  - intros U R Vf. destruct (MU k (or_introl U)) as (M & Hh). destruct (key_kinds k M Hh) as [(_ & E)|[(U2 & _)|(U2 & _)]]; [|congruence..].
    rewrite E. unfold move_up. rewrite R. unfold edge. rewrite Hv. change (zpos (row t) (col t)) with (at_pos t).
    unfold at_pos in Vf at 2. cbn [snd] in Vf. rewrite Vf. reflexivity.
  - intros U Dn R Vf. destruct (MU k (or_intror Dn)) as (M & Hh). destruct (key_kinds k M Hh) as [(U2 & _)|[(_ & _ & E)|(_ & U2 & _)]]; [congruence| |congruence].
    rewrite E. unfold move_down. replace (length (buf t) - 1 <=? row t)%nat with true by lia. unfold edge. rewrite Hv. change (zpos (row t) (col t)) with (at_pos t).
    unfold at_pos in Vf at 2 3. cbn [fst snd] in Vf. rewrite Vf. reflexivity.
Qed.
(** A shell prompt: two lines, nothing left of column 2, no row but the second. *)
Definition prompt : ta := apply_all [OSetValue [97; 10; 36; 32; 108]; OMoveCursorToEnd; OValidator (fun _ to => (fst to =? 1) && (2 <=? snd to))] new_ta.
Example C343_ex : valid prompt /\
  handle (plain KUp) prompt = (prompt, [EBlocked (0, 1)]) /\
  handle (plain KDown) prompt = (prompt, [EBlocked (2, 3)]) /\
  refusals (snd (handle (plain KLeft) prompt)) = [] /\
  refusals (snd (handle (plain KHome) prompt)) = [] /\
  handle (plain KRight) prompt = (prompt, []) /\
  backspace_key (ctrl 104) = true /\ kill_to_start (ctrl 117) = true.
Proof. split; [apply Valid; vm_compute; lia|]. repeat split. Qed.
Definition jailed : ta := apply_all [OSetValue [97]; OValidator (fun _ _ => false)] new_ta.
Example C343_jailed_ex : handle (plain KHome) jailed = (jailed, [EBlocked (0, 0)]) /\ handle (plain KUp) jailed = (jailed, [EBlocked (-1, 0)]) /\
  snd (handle (ctrl 117) jailed) = [EBlocked (0, 0)] /\ handle (plain KBackspace) jailed = (jailed, []).
Proof. repeat split. Qed.

Print Assumptions C343_told_of_what_is_refused. Print Assumptions C343_home. Print Assumptions C343_no_validator. Print Assumptions C343_backspace.
Print Assumptions C343_other_keys. Print Assumptions C344_starts_as_documented. Print Assumptions C345_edges_are_told_refuted. Print Assumptions C345_edges_are_told_partial.
