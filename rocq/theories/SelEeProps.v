(** C362: end to end, the option Enter chooses in a Select is the one marked on the terminal. *)
From Coq Require Import String Ascii.
From Verif Require Import Prelude Utf8 TermEmu RenderEmu InlineModel InlineSpec TruncProofs TruncItems InlineEmu InlineFrames InlineProps PdModel PdProps.
From Verif Require Import KeysModel KeysSpec KeysProofs KeysMixProps EeProps TaEeProps.
From Verif Require CfProps.
From Verif Require Import SelModel SelEeModel.
Close Scope string_scope. Open Scope list_scope. Open Scope Z_scope.
Definition zs (s : string) : list Z := map (fun a => Z.of_N (N_of_ascii a)) (list_ascii_of_string s).

(** ** Specification: what somebody in front of the terminal sees and does *)
Section Spec.
Variable labels : list (list Z).                        (* the options' texts *)
Variable accept : list Z -> list Z -> bool.             (* does the option with this text (UTF-8) match what was typed? *)
(** The numbers of the options that match. *)
Definition matching (q : list Z) : list nat := filter (fun i => accept (enc (nth i labels [])) q) (seq 0 (length labels)).
(** What was typed into the filter, which of the matching options is marked, and the option chosen, if any. *)
Record glance := Glance { typed_ : list Z; mark : nat; picked_ : option nat }.
Definition retype (g : glance) (q : list Z) : glance := Glance q (Nat.min (mark g) (length (matching q) - 1)) (picked_ g).
Definition goto (g : glance) (i : nat) : glance := Glance (typed_ g) (Nat.min i (length (matching (typed_ g)) - 1)) (picked_ g).
Definition tap (g : glance) (k : stroke) : glance :=
  match k with
  | Chr x =>
      if (x =? 13) || (x =? 10) then Glance (typed_ g) (mark g) (match nth_error (matching (typed_ g)) (mark g) with Some i => Some i | None => picked_ g end)
      else if (x =? 127) || (x =? 8) then match typed_ g with [] => g | q => retype g (removelast q) end
      else if x =? 107 then goto g (mark g - 1)                                 (* k *)
      else if x =? 106 then goto g (mark g + 1)                                 (* j *)
      else if x =? 103 then goto g 0                                            (* g *)
      else if x =? 71 then goto g (length labels)                               (* G *)
      else if x <=? 32 then g
      else retype g (typed_ g ++ [x])
  | Fun _ m => match ktype m with KUp => goto g (mark g - 1) | KDown => goto g (mark g + 1) | KHome => goto g 0 | KEnd => goto g (length labels) | _ => g end
  | Esc => retype g []
  | Unk _ _ => g
  end.
Definition glanced (ks : list stroke) : glance := fold_left tap ks (Glance [] 0 None).
(** Keystrokes: ASCII characters, Enter, Tab, Backspace, the control codes without a letter, the function keys, Esc, unknown sequences. *)
Definition select_stroke (k : stroke) : Prop := stroke_ok k /\ match k with Chr x => 32 <= x <= 127 \/ In x [13; 10; 8; 9; 0; 28; 29; 30; 31] | _ => True end.
(** The rows: the title and an empty row (none without a title), up to ten of the matching options with the marked one among them, an empty row, the filter. *)
Definition option_row (g : glance) (k : nat) : list Z := (if (k =? mark g)%nat then zs "> " else zs "  ") ++ nth (nth k (matching (typed_ g)) O) labels [].
Definition option_rows (g : glance) : list (list Z) :=
  match matching (typed_ g) with
  | [] => [zs (match typed_ g with [] => "(no options)" | _ => "(no matches)" end)%string]
  | m => firstn 10 (skipn (mark g - 9) (map (option_row g) (seq 0 (length m))))
  end.
Definition rows (title : list Z) (g : glance) : list (list Z) :=
  match title with [] => [] | _ => [title; []] end ++ option_rows g ++ [[]; match typed_ g with [] => zs "Type to filter..." | q => zs "Filter: " ++ q end].
End Spec.

(** ** Proofs *)
Lemma filter_nat (f : Z -> bool) l : filter f (map Z.of_nat l) = map Z.of_nat (filter (fun i => f (Z.of_nat i)) l).
Proof. induction l as [|a l IH]; [reflexivity|]. cbn [map filter]. rewrite IH. destruct (f (Z.of_nat a)); reflexivity. Qed.
Lemma filter_le {A} (f : A -> bool) l : (length (filter f l) <= length l)%nat.
Proof. induction l as [|a l IH]; [auto|]. cbn [filter]. destruct (f a); cbn [length]; lia. Qed.
Lemma index_seq n : forall s i, (s <= i < s + n)%nat -> index_of (Z.of_nat i) (map Z.of_nat (seq s n)) = Some (Z.of_nat (i - s)).
Proof.
  induction n as [|n IH]; intros s i L; [lia|]. cbn [seq map index_of]. destruct (Z.of_nat s =? Z.of_nat i) eqn:E.
  - apply Z.eqb_eq in E. assert (s = i) by lia. subst. now rewrite Nat.sub_diag.
  - apply Z.eqb_neq in E. rewrite IH by lia. f_equal. lia.
Qed.
Lemma seq_window {B} (f : nat -> B) n o k : (o + k <= n)%nat -> map f (seq o k) = firstn k (skipn o (map f (seq 0 n))).
Proof.
  intros L. replace n with (o + (k + (n - o - k)))%nat by lia. rewrite seq_app, map_app. cbn [plus]. rewrite skipn_app, skipn_all2 by (rewrite map_length, seq_length; lia).
  rewrite map_length, seq_length, Nat.sub_diag. cbn [app]. change (skipn 0 ?l) with l. rewrite seq_app, map_app, firstn_app, map_length, seq_length, Nat.sub_diag, firstn_O, app_nil_r.
  symmetry. apply firstn_all2. rewrite map_length, seq_length. lia.
Qed.
Lemma zs_plain s : Forall (fun a => 32 <= Z.of_N (N_of_ascii a) <= 126) (list_ascii_of_string s) -> Forall single_width (zs s).
Proof. intros Q. unfold zs. apply Forall_map. eapply Forall_impl; [|exact Q]. intros a A. left. exact A. Qed.
Lemma low_enc s : Forall (fun x => 0 <= x < 128) s -> enc s = s.
Proof. induction 1 as [|x s A B IH]; [reflexivity|]. cbn [enc flat_map]. fold (enc s). rewrite IH. unfold enc_rune. replace (x <? 128) with true by lia. reflexivity. Qed.

Section SelEe.
Variables (labels : list (list Z)) (accept : list Z -> list Z -> bool).
Notation heap := (fun p => enc (nth (Z.to_nat p) labels [])).
Notation n := (length labels).
Notation mt := (matching labels accept).
Hypothesis Hall : forall l, accept l [] = true.

Definition follows (u : sui (list Z)) (g : glance) : Prop :=
  filterable u = true /\ Forall (fun x => 33 <= x <= 126) (typed_ g) /\ (mark g <= length (mt (typed_ g)) - 1)%nat /\ (match picked_ g with Some i => (i < n)%nat | None => True end) /\
  dom u = Sel (map Z.of_nat (seq 0 n)) (Z.of_nat (mark g)) (match picked_ g with Some i => Z.of_nat i | None => -1 end) (typed_ g) (map Z.of_nat (mt (typed_ g))) 10 0 accept.
Lemma match_all : mt [] = seq 0 n.
Proof using Hall. unfold matching. induction (seq 0 n) as [|a l IH]; [reflexivity|]. cbn [filter]. rewrite Hall, IH. reflexivity. Qed.
Lemma follows_new : follows (se_new heap accept n) (Glance [] 0 None).
Proof using Hall. split; [reflexivity|]. split; [constructor|]. split; [cbn [mark]; lia|]. split; [exact Logic.I|]. cbn [typed_ mark picked_]. rewrite match_all. reflexivity. Qed.
Lemma goto_follows u g c' i : follows u g -> cursor c' = Z.of_nat (Nat.min i (length (mt (typed_ g)) - 1)) -> c' = with_cursor (dom u) (cursor c') -> follows (SU c' true) (goto labels accept g i).
Proof using. clear. intros (A & B & C & D & E) Ec Ew. split; [reflexivity|]. split; [exact B|]. split; [cbn [mark goto typed_]; lia|]. split; [exact D|]. cbn [dom]. rewrite Ew, Ec, E. reflexivity. Qed.
Lemma retype_follows u g q : follows u g -> Forall (fun x => 33 <= x <= 126) q -> follows (SU (set_query heap (dom u) q) true) (retype labels accept g q).
Proof using.
  clear. intros (A & B & C & D & E) Q. split; [reflexivity|]. split; [exact Q|]. split; [cbn [mark retype typed_]; lia|]. split; [exact D|]. cbn [dom retype typed_ mark picked_]. rewrite E.
  unfold set_query. cbn [options cursor chosen query filtered height scroll filt]. rewrite filter_nat.
  assert (Em : filter (fun i => accept (enc (nth (Z.to_nat (Z.of_nat i)) labels [])) q) (seq 0 n) = mt q).
  { unfold matching. apply filter_ext. intros i. now rewrite Nat2Z.id. }
  rewrite Em. f_equal. rewrite map_length. destruct (Z.of_nat (length (mt q)) <=? Z.of_nat (mark g)) eqn:E1; match goal with |- context [if ?b then _ else _] => destruct b eqn:E2 end; lia.
Qed.
Lemma choose_follows u g : follows u g -> follows (SU (choose (dom u)) true) (Glance (typed_ g) (mark g) (match nth_error (mt (typed_ g)) (mark g) with Some i => Some i | None => picked_ g end)).
Proof using.
  clear. intros (A & B & C & D & E). split; [reflexivity|]. split; [exact B|]. split; [exact C|]. cbn [typed_ mark picked_ dom].
  assert (R : forall i, nth_error (mt (typed_ g)) (mark g) = Some i -> (i < n)%nat).
  { intros i Hi. apply nth_error_In in Hi. unfold matching in Hi. apply filter_In in Hi as [Hi _]. apply in_seq in Hi. lia. }
  split; [destruct (nth_error _ _) as [i|] eqn:Ei; auto|]. unfold choose. rewrite E. cbn [filtered cursor options].
  unfold at_. rewrite map_length. destruct (nth_error (mt (typed_ g)) (mark g)) as [i|] eqn:Ei.
  - assert (L : (mark g < length (mt (typed_ g)))%nat) by (apply nth_error_Some; congruence). replace ((0 <=? Z.of_nat (mark g)) && _) with true by lia.
    rewrite Nat2Z.id, nth_error_map, Ei. cbn [option_map]. rewrite index_seq by (specialize (R i eq_refl); lia). rewrite Nat.sub_0_r. reflexivity.
  - apply nth_error_None in Ei. replace ((0 <=? Z.of_nat (mark g)) && _) with false by lia. reflexivity.
Qed.

Lemma move_cases u g : follows u g ->
  follows (SU (move_up (dom u)) true) (goto labels accept g (mark g - 1)) /\ follows (SU (move_down (dom u)) true) (goto labels accept g (mark g + 1)) /\
  follows (SU (to_start (dom u)) true) (goto labels accept g 0) /\ follows (SU (to_end (dom u)) true) (goto labels accept g n).
Proof using.
  clear. intros F. pose proof F as (A & B & C & D & E).
  assert (Ln : (length (mt (typed_ g)) <= n)%nat) by (unfold matching; pose proof (filter_le (fun i => accept (enc (nth i labels [])) (typed_ g)) (seq 0 (length labels))) as L; rewrite seq_length in L; exact L).
  assert (G : forall c i, c = Z.of_nat (Nat.min i (length (mt (typed_ g)) - 1)) -> follows (SU (with_cursor (dom u) c) true) (goto labels accept g i)).
  { intros c i Ec. apply (goto_follows u g (with_cursor (dom u) c) i F); [exact Ec|reflexivity]. }
  split; [|split; [|split]]; apply G; unfold nfilt; rewrite ?E; cbn [cursor filtered]; rewrite ?map_length.
  - destruct (0 <? Z.of_nat (mark g)) eqn:E1; lia.
  - destruct (_ <? _) eqn:E1; lia.
  - lia.
  - destruct (_ <? 0) eqn:E1; lia.
Qed.
Lemma tap_follows u g k : follows u g -> select_stroke k -> follows (fold_left (se_update heap) (stroke_msgs k) u) (tap labels accept g k).
Proof using.
  clear. intros F [K1 K2]. pose proof F as (Fa & Fb & Fc & Fd & Fe). pose proof (move_cases u g F) as (M1 & M2 & M3 & M4).
  assert (Eu : u = SU (dom u) true) by (destruct u; cbn in *; congruence).
  destruct k as [x|b m| |ps f]; cbn [stroke_msgs tap].
  - unfold char_msgs.
    destruct ((x =? 13) || (x =? 10)) eqn:E13.
    { cbn [fold_left]. unfold se_update, sstep, handle_key. cbn [action_of ktype fst]. rewrite Fa. apply choose_follows, F. }
    destruct ((x =? 127) || (x =? 8)) eqn:E127.
    { cbn [fold_left]. unfold se_update, sstep, handle_key, filter_input. cbn [action_of ktype fst]. rewrite Fa. rewrite Fe at 1. cbn [query].
      destruct (typed_ g) as [|y q] eqn:Eq; [exact F|]. rewrite <- Eq in *. assert (G : query (dom u) = typed_ g) by (rewrite Fe; reflexivity).
      apply retype_follows; auto. rewrite Eq in *. rewrite (app_removelast_last (l := y :: q) 0) in Fb by discriminate. apply Forall_app in Fb. tauto. }
    destruct (x =? 9) eqn:E9.
    { cbn [fold_left]. unfold se_update, sstep, handle_key, filter_input. cbn [action_of ktype fst]. rewrite Fa. replace (x =? 107) with false by lia. replace (x =? 106) with false by lia. replace (x =? 103) with false by lia. replace (x =? 71) with false by lia. replace (x <=? 32) with true by lia. exact F. }
    destruct (x =? 32) eqn:E32.
    { cbn [fold_left]. unfold se_update, sstep, handle_key, filter_input. cbn [action_of ktype fst]. rewrite Fa. replace (x =? 107) with false by lia. replace (x =? 106) with false by lia. replace (x =? 103) with false by lia. replace (x =? 71) with false by lia. replace (x <=? 32) with true by lia. exact F. }
    destruct (x <? 32) eqn:El.
    { replace ((1 <=? x) && (x <=? 26)) with false by (cbn [In] in K2; lia). replace (x =? 107) with false by lia. replace (x =? 106) with false by lia. replace (x =? 103) with false by lia. replace (x =? 71) with false by lia. replace (x <=? 32) with true by lia. exact F. }
    replace ((1 <=? x) && (x <=? 26)) with false by lia. cbn [fold_left]. unfold se_update, sstep, handle_key, action_of, filter_input. cbn [ktype krune rune_key fst].
    destruct (x =? 107); [cbn [fst]; rewrite Fa; exact M1|]. destruct (x =? 106); [cbn [fst]; rewrite Fa; exact M2|]. destruct (x =? 103); [cbn [fst]; rewrite Fa; exact M3|]. destruct (x =? 71); [cbn [fst]; rewrite Fa; exact M4|].
    replace (x <=? 32) with false by lia. cbn [fst]. rewrite Fa. assert (G : query (dom u) = typed_ g) by (rewrite Fe; reflexivity). rewrite G.
    assert (Ex : enc_rune x = [x]) by (unfold enc_rune; replace (x <? 128) with true by (cbn [In] in K2; lia); reflexivity). rewrite Ex.
    apply retype_follows; auto. apply Forall_app. split; [exact Fb|]. constructor; [cbn [In] in K2; lia|constructor].
  - cbn [fold_left]. unfold se_update, sstep, handle_key. cbn [stroke_ok] in K1.
    assert (Hsh : ktype m <> KEnter /\ ktype m <> KEsc /\ ktype m <> KCtrlC /\ ktype m <> KRune /\ ktype m <> KBackspace).
    { cbn [csi_keys In] in K1. decompose [or] K1; try contradiction; match goal with X : _ = _ |- _ => injection X as <- <- end; repeat split; discriminate. }
    destruct Hsh as (H1 & H2 & H3 & H4 & H5). unfold action_of, filter_input.
    destruct (ktype m) eqn:Em; try congruence; cbn [fst]; rewrite ?Fa; auto.
  - cbn [fold_left]. unfold se_update, sstep, handle_key. cbn [action_of ktype fst]. rewrite Fa. apply retype_follows; auto.
  - exact F.
Qed.
Lemma taps_follow ks : forall u g, follows u g -> Forall select_stroke ks -> follows (fold_left (se_update heap) (flat_map stroke_msgs ks) u) (fold_left (tap labels accept) ks g).
Proof using.
  clear. induction ks as [|k ks IH]; intros u g S F; [exact S|]. inversion F; subst. cbn [flat_map fold_left]. rewrite fold_left_app. apply IH; auto. apply tap_follows; auto.
Qed.
End SelEe.

(** *** What is drawn *)
Lemma joined_nl ls : joined ls = join_nl ls.
Proof. induction ls as [|l [|b r] IH]; [reflexivity..|]. cbn [joined join_nl]. cbn [joined] in IH. rewrite IH. reflexivity. Qed.
Lemma seq_off k : forall o, seq o k = map (Nat.add o) (seq 0 k).
Proof. induction k as [|k IH]; intros o; [reflexivity|]. cbn [seq map]. rewrite Nat.add_0_r. f_equal. rewrite (IH (S o)), (IH 1%nat), map_map. apply map_ext. intros. lia. Qed.
Lemma window {B} (f : nat -> B) n o m : (o <= n)%nat -> firstn m (skipn o (map f (seq 0 n))) = map (fun i => f (o + i)%nat) (seq 0 (Nat.min m (n - o))).
Proof.
  intros L. transitivity (map f (seq o (Nat.min m (n - o)))).
  - rewrite (seq_window f n o (Nat.min m (n - o))) by lia. destruct (Nat.le_ge_cases m (n - o)) as [E|E].
    + now rewrite Nat.min_l by lia.
    + rewrite Nat.min_r by lia. rewrite !firstn_all2; auto; rewrite skipn_length, map_length, seq_length; lia.
  - rewrite seq_off, map_map. reflexivity.
Qed.

Section View.
Variables (labels : list (list Z)) (accept : list Z -> list Z -> bool) (title : list Z).
Notation heap := (fun p => enc (nth (Z.to_nat p) labels [])).
Notation n := (length labels).
Notation mt := (matching labels accept).
Notation follows := (follows labels accept).
Lemma typed_enc q : Forall (fun x => 33 <= x <= 126) q -> enc q = q.
Proof using. clear. intros F. apply low_enc. eapply Forall_impl; [|exact F]. intros; cbn beta in *; lia. Qed.
Lemma option_lines_shown u g rs : follows u g -> render_visible (dom u) = Some rs ->
  map (line_text heap) (option_lines rs (query (dom u))) = map enc (option_rows labels accept g).
Proof using.
  clear. intros (A & B & C & D & E) R. unfold render_visible in R. rewrite E in *. cbn [query]. unfold nfilt, adjusted in R. cbn [filtered scroll cursor height] in R.
  rewrite map_length in R. unfold option_rows. destruct (mt (typed_ g)) as [|a m] eqn:Em.
  { cbn in R. injection R as <-. destruct (typed_ g); reflexivity. }
  assert (Ln : length (mt (typed_ g)) = S (length m)) by now rewrite Em. rewrite <- Em in *. clear Em.
  set (N := length (mt (typed_ g))) in *. replace (Z.of_nat N =? 0) with false in R by lia. replace (Z.of_nat (mark g) <? 0) with false in R by lia.
  assert (Es : (if 0 + 10 <=? Z.of_nat (mark g) then Z.of_nat (mark g) - 10 + 1 else 0) = Z.of_nat (mark g - 9)) by (destruct (0 + 10 <=? Z.of_nat (mark g)) eqn:X; lia).
  rewrite Es in R. set (o := (mark g - 9)%nat) in *. assert (Lo : (o < N)%nat) by lia.
  assert (Kp : (0 < Nat.min 10 (N - o))%nat) by lia.
  assert (Ee : (if Z.of_nat N <? Z.of_nat o + 10 then Z.of_nat N else Z.of_nat o + 10) - Z.of_nat o = Z.of_nat (Nat.min 10 (N - o))) by (clear - Lo; clearbody o N; destruct (Z.of_nat N <? Z.of_nat o + 10) eqn:X; lia).
  rewrite Ee in R. clear Ee. replace ((Z.of_nat o <? 0) || _) with false in R by lia. rewrite Nat2Z.id in R. apply (f_equal (fun x => match x with Some y => y | None => [] end)) in R. cbn beta iota in R. rewrite <- R. clear R.
  rewrite (window (option_row labels accept g) N o 10) by lia. generalize dependent (Nat.min 10 (N - o)). intros K EK. destruct K as [|k]; [exfalso; lia|]. clear EK.
  assert (Eo : forall l q, l <> [] -> @option_lines (Z * Z * bool) l q = map VOpt l) by (intros [|? ?] ? ?; [congruence|reflexivity]).
  rewrite Eo by (cbn [seq map]; discriminate). rewrite !map_map. apply map_ext. intros i. cbn [line_text].
  unfold sdefault_render, option_row. cbn [ot_label ot_desc ot_disabled app]. rewrite !app_nil_r, enc_app. replace (Z.of_nat o + Z.of_nat i) with (Z.of_nat (o + i)) by lia.
  rewrite Nat2Z.id. change 0 with (Z.of_nat 0) at 1. rewrite map_nth, Nat2Z.id. f_equal.
  destruct (Nat.eqb_spec (o + i) (mark g)) as [X|X]; [replace (Z.of_nat (o + i) =? _) with true by lia|replace (Z.of_nat (o + i) =? _) with false by lia]; reflexivity.
Qed.
Lemma rendered u g : follows u g -> exists rs, render_visible (dom u) = Some rs.
Proof using.
  clear. intros (A & B & C & D & E). unfold render_visible. rewrite E. unfold nfilt, adjusted. cbn [filtered scroll cursor height]. rewrite map_length.
  destruct (_ =? 0) eqn:E0; [eauto|]. replace (Z.of_nat (mark g) <? 0) with false by lia.
  match goal with |- context [if ?b then None else _] => replace b with false; [eauto|] end.
  destruct (0 + 10 <=? Z.of_nat (mark g)) eqn:X; match goal with |- context [if ?b then Z.of_nat _ else _] => destruct b eqn:Y end; lia.
Qed.
Lemma view_lines u g : follows u g -> se_view heap (enc title) u = view_bytes (map (map Ch) (rows labels accept title g)).
Proof using.
  clear. intros F. destruct (rendered u g F) as (rs & R). pose proof (option_lines_shown u g rs F R) as O. destruct F as (A & B & C & D & E).
  unfold se_view, sview. rewrite R, joined_nl, A. unfold view_bytes. f_equal. rewrite map_map. erewrite (map_ext (fun x => line_bytes (map Ch x)) enc) by (intros; apply line_chars).
  unfold rows. rewrite !map_app, O. f_equal.
  - destruct title as [|x r]; [reflexivity|]. pose proof (enc_rune_ne x). cbn [enc flat_map]. destruct (enc_rune x) as [|y z] eqn:Ex; [congruence|]. cbn [app map line_text]. fold (enc r). cbn [enc flat_map]. rewrite Ex. reflexivity.
  - f_equal. rewrite E. cbn [query filter_lines map line_text]. destruct (typed_ g) as [|y q] eqn:Eq; [reflexivity|]. cbn [line_text]. rewrite enc_app, (typed_enc (y :: q)) by exact B. reflexivity.
Qed.
End View.

(** *** The screen *)
Section Screen.
Variables (cw : Z -> Z) (zw : Z -> bool) (W H : Z) (labels : list (list Z)) (accept : list Z -> list Z -> bool) (title : list Z).
Notation heap := (fun p => enc (nth (Z.to_nat p) labels [])).
Notation n := (length labels).
Notation mt := (matching labels accept).
Notation follows := (follows labels accept).
Notation rows := (rows labels accept title).
Hypothesis Hcw : forall x, single_width x -> cw x = 1 /\ zw x = false.
Hypothesis Hall : forall l, accept l [] = true.
Hypothesis Ht : Forall single_width title /\ Z.of_nat (length title) < W.
Hypothesis Hl : Forall (fun l => Forall single_width l /\ Z.of_nat (length l) + 2 < W) labels.
Hypothesis HW : 18 <= W.
Hypothesis HH : Z.of_nat (Nat.max 1 (Nat.min 10 n)) + 4 <= H.

(** What was typed fits beside "Filter: ". *)
Definition fits (g : glance) : Prop := Forall (fun x => 33 <= x <= 126) (typed_ g) /\ Z.of_nat (length (typed_ g)) + 8 < W.
Definition head_ok (l : list Z) : Prop := match l with [] => True | x :: _ => x = 32 \/ x = 62 \/ x = 40 end.
Lemma option_rows_ok g : Forall (fun l => Forall single_width l /\ Z.of_nat (length l) < W /\ head_ok l) (option_rows labels accept g).
Proof using All.
  unfold option_rows. assert (Z0 : forall s, s = "(no options)"%string \/ s = "(no matches)"%string -> Forall single_width (zs s) /\ Z.of_nat (length (zs s)) < W /\ head_ok (zs s)).
  { intros s [-> | ->]; (split; [apply zs_plain; repeat (constructor; [cbn; lia|]); constructor|split; [cbn; lia|cbn; auto]]). }
  destruct (mt (typed_ g)) as [|a m] eqn:Em; [constructor; [|constructor]; apply Z0; destruct (typed_ g); auto|]. rewrite <- Em. clear Z0.
  apply Forall_forall. intros l I.
  assert (I' : In l (map (option_row labels accept g) (seq 0 (length (mt (typed_ g)))))).
  { rewrite <- (firstn_skipn (mark g - 9) (map _ _)), in_app_iff. right. rewrite <- (firstn_skipn 10 (skipn _ _)), in_app_iff. left. exact I. }
  apply in_map_iff in I' as (k & <- & _). unfold option_row. set (l := nth _ labels []).
  assert (Hnl : Forall single_width l /\ Z.of_nat (length l) + 2 < W).
  { destruct (nth_in_or_default (nth k (mt (typed_ g)) O) labels []) as [I'|E]; [rewrite Forall_forall in Hl; apply Hl; exact I'|]. fold l in E. rewrite E. split; [constructor|cbn; lia]. }
  destruct Hnl as [N1 N2]. destruct (k =? mark g)%nat; (split; [apply Forall_app; split; [apply zs_plain; repeat (constructor; [cbn; lia|]); constructor|exact N1]|split; [rewrite app_length; cbn [length zs map list_ascii_of_string]; lia|cbn; auto]]).
Qed.
Lemma option_rows_len g : (mark g <= length (mt (typed_ g)) - 1)%nat -> (1 <= length (option_rows labels accept g) <= Nat.max 1 (Nat.min 10 n))%nat.
Proof using.
  clear. unfold option_rows. assert (Ln : (length (mt (typed_ g)) <= n)%nat) by (unfold matching; pose proof (filter_le (fun i => accept (enc (nth i labels [])) (typed_ g)) (seq 0 (length labels))) as L; rewrite seq_length in L; exact L).
  destruct (mt (typed_ g)) as [|a m] eqn:Em; [intros _; cbn [length]; lia|]. rewrite <- Em in *. intros Lm. assert (0 < length (mt (typed_ g)))%nat by (rewrite Em; cbn; lia).
  rewrite firstn_length, skipn_length, map_length, seq_length. lia.
Qed.
Notation hdr := (match title with [] => [] | _ => [title; []] end).
Definition footer (g : glance) : list Z := match typed_ g with [] => zs "Type to filter..." | q => zs "Filter: " ++ q end.
Lemma footer_ok g : fits g -> Forall single_width (footer g) /\ Z.of_nat (length (footer g)) < W /\ (exists x r, footer g = x :: r /\ (x = 84 \/ x = 70)).
Proof using All.
  intros [F L]. unfold footer. destruct (typed_ g) as [|y q].
  - split; [apply zs_plain; repeat (constructor; [cbn; lia|]); constructor|]. split; [cbn; lia|]. cbn. eauto.
  - split; [|split; [rewrite app_length; cbn [length zs map list_ascii_of_string] in *; lia|cbn; eauto]].
    apply Forall_app. split; [apply zs_plain; repeat (constructor; [cbn; lia|]); constructor|]. eapply Forall_impl; [|exact F]. intros c Hc. left. cbn beta in Hc. lia.
Qed.
Lemma rows_ok g : fits g -> Forall (fun l => Forall single_width l /\ Z.of_nat (length l) < W) (rows g).
Proof using All.
  intros F. destruct (footer_ok g F) as (F1 & F2 & _). unfold SelEeProps.rows. apply Forall_app. split.
  - destruct title as [|x r] eqn:Ex; [constructor|]. rewrite <- Ex in *. constructor; [exact Ht|]. constructor; [split; [constructor|cbn; lia]|constructor].
  - apply Forall_app. split; [eapply Forall_impl; [|apply option_rows_ok]; cbn beta; tauto|]. constructor; [split; [constructor|cbn; lia]|]. constructor; [split; assumption|constructor].
Qed.
Definition frame_ok (v : list (list item)) : Prop :=
  v <> [] /\ Forall (Forall (show_ok cw (rdw zw))) v /\ Z.of_nat (length v) <= H /\ Forall (fun l => cols (rdw zw) (visible l) < W) v.
Definition good (g : glance) : Prop := fits g /\ (mark g <= length (mt (typed_ g)) - 1)%nat.
Lemma rows_length g : length (rows g) = (length hdr + length (option_rows labels accept g) + 2)%nat.
Proof using. clear. unfold SelEeProps.rows. rewrite !app_length. cbn [length]. lia. Qed.
Lemma rows_frame g : good g -> frame_ok (map (map Ch) (rows g)).
Proof using All.
  intros [F L]. pose proof (rows_ok g F) as Ok. pose proof (option_rows_len g L) as OL. pose proof (rows_length g) as RL.
  split; [intros E; apply (f_equal (@length _)) in E; rewrite map_length in E; cbn [length] in E; lia|]. split; [|split].
  - apply Forall_map. eapply Forall_impl; [|exact Ok]. intros l [Hs _]. apply chars_ok; auto.
  - rewrite map_length, RL. assert (length hdr <= 2)%nat by (destruct title; cbn; lia). lia.
  - apply Forall_map. eapply Forall_impl; [|exact Ok]. intros l [Hs Hlen]. rewrite visible_chars. rewrite (cols_single InSpec.every (fun l => Z.of_nat (length l)) cw zw every_single Hcw) by exact Hs. lia.
Qed.
(** When a frame has fewer rows than the one before, its last row differs from what is in its place. *)
Lemma shorter_differs g g' : fits g' -> (length (rows g') < length (rows g))%nat -> (1 <= length (option_rows labels accept g'))%nat ->
  line_bytes (List.last (map (map Ch) (rows g')) []) <> line_bytes (nth (length (map (map Ch) (rows g')) - 1) (map (map Ch) (rows g)) []).
Proof using All.
  intros F L L1. destruct (footer_ok g' F) as (_ & _ & x & r & Ef & Hx).
  assert (El : List.last (map (map Ch) (rows g')) [] = map Ch (footer g')).
  { unfold SelEeProps.rows. rewrite !map_app. cbn [map]. rewrite !app_assoc. change (?a ++ [?b; ?c]) with (a ++ [b] ++ [c]). rewrite app_assoc. apply last_last. }
  rewrite El, line_chars, Ef. rewrite map_length. rewrite !rows_length in *. change (@nil item) with (map Ch []). rewrite map_nth, line_chars.
  replace (length hdr + length (option_rows labels accept g') + 2 - 1)%nat with (length hdr + S (length (option_rows labels accept g')))%nat by lia.
  unfold SelEeProps.rows. rewrite app_nth2 by lia. replace (length hdr + _ - length hdr)%nat with (S (length (option_rows labels accept g'))) by lia.
  assert (Hd : head_ok (nth (S (length (option_rows labels accept g'))) (option_rows labels accept g ++ [[]; match typed_ g with [] => zs "Type to filter..." | q => zs "Filter: " ++ q end]) [])).
  { destruct (Nat.lt_ge_cases (S (length (option_rows labels accept g'))) (length (option_rows labels accept g))) as [Q|Q].
    - rewrite app_nth1 by exact Q. pose proof (option_rows_ok g) as Ok. rewrite Forall_forall in Ok. apply Ok. apply nth_In. exact Q.
    - rewrite app_nth2 by lia. replace (_ - _)%nat with O by lia. exact Logic.I. }
  destruct (nth _ _ []) as [|y s]; [|cbn [head_ok] in Hd].
  - cbn [enc flat_map]. destruct Hx as [-> | ->]; discriminate.
  - intros E. cbn [enc flat_map] in E. decompose [or] Hd; destruct Hx; subst; cbn in E; discriminate.
Qed.
Lemma shapes_adm Mdl Msg (up : Mdl -> Msg -> Mdl) (f : Mdl -> list (list item)) ms :
  forall m g0, good g0 -> (forall k, (0 < k)%nat -> exists g, good g /\ f (fold_left up (firstn k ms) m) = map (map Ch) (rows g)) ->
  adm cw zw W H 0 0 true (map (map Ch) (rows g0)) (calls Mdl Msg up f (fun _ => None) m ms).
Proof using All.
  induction ms as [|a ms IH]; intros m g0 G0 Hf; [exact Logic.I|]. cbn [calls app adm].
  destruct (Hf 1%nat ltac:(lia)) as (g & G & E). cbn [firstn fold_left] in E. rewrite E. change (keep 0 (map (map Ch) (rows g))) with (map (map Ch) (rows g)). change (fitted (rdw zw) 0) with (fun l : list item => l).
  destruct (rows_frame g G) as (O1 & O2 & O3 & O4).
  split; [exact O1|]. split; [exact O2|]. split; [exact O3|]. split; [exact O4|]. split; [discriminate|]. split.
  { intros _ Hlt. right. apply shorter_differs; [apply G|rewrite !map_length in Hlt; exact Hlt|apply option_rows_len, G]. }
  apply IH; [exact G|]. intros k Hk. apply (Hf (S k)). lia.
Qed.

Theorem C362_marked_option_is_chosen : forall t ks reads,
  (* the screen: a [W] x [H] terminal, the cursor at the start of a row, blank from there on *)
  tw t = W -> th t = H -> pst t = Ground -> pend t = false -> cx t = 0 -> 0 <= cy t < H ->
  (forall x y, 0 <= x < W -> cy t <= y < H -> cell2 (grid t x y) = blankc) ->
  (* the keystrokes, what is typed always fitting its row, and how they arrive *)
  Forall select_stroke ks -> (forall i, Z.of_nat (length (typed_ (glanced labels accept (firstn i ks)))) + 8 < W) -> arrives ks reads ->
  let msgs := delivered reads in
  let m := fold_left (se_update heap) msgs (se_new heap accept n) in
  let t' := emu cw t (snd (session zw (sui (list Z)) keymsg (se_update heap) (se_view heap (enc title)) (fun _ => None) false (se_new heap accept n) (map Handle msgs))) in
  let g := glanced labels accept ks in
  selected_value heap (dom m) = option_map (fun i => enc (nth i labels [])) (picked_ g) /\
  exists row, 0 <= row <= cy t /\
    (forall j x, 0 <= x < W -> row + Z.of_nat j < H -> cell2 (grid t' x (row + Z.of_nat j)) = (nth (Z.to_nat x) (nth j (rows g) []) 32, Single)) /\
    (forall x y, 0 <= y < row -> grid t' x y = grid t x (y + (cy t - row))).
Proof using All.
  intros t ks reads T1 T2 T3 T4 T5 T6 T7 Hk Hfit Har msgs m t' g.
  set (m0 := se_new heap accept n) in *. set (vw := se_view heap (enc title)) in *. set (up := se_update heap) in *.
  assert (Em : msgs = flat_map stroke_msgs ks) by (apply C283_keystrokes_delivered; auto; eapply Forall_impl; [|exact Hk]; intros k [A _]; exact A).
  assert (Hpre : forall i, follows (fold_left up (flat_map stroke_msgs (firstn i ks)) m0) (glanced labels accept (firstn i ks))).
  { intros i. apply taps_follow; [apply follows_new; exact Hall|]. rewrite <- (firstn_skipn i ks) in Hk. apply Forall_app in Hk. tauto. }
  assert (Hreach : forall k, exists d, follows (fold_left up (firstn k msgs) m0) d /\ good d).
  { intros k. rewrite Em. destruct (msgs_prefix ks k) as (i & ->). eexists. split; [apply Hpre|]. destruct (Hpre i) as (_ & B & C & _). split; [split; [exact B|apply Hfit]|exact C]. }
  assert (Hm : follows m g) by (unfold m, g; rewrite Em; pose proof (Hpre (length ks)) as Hp; rewrite firstn_all in Hp; exact Hp).
  assert (Gg : good g) by (destruct Hm as (_ & B & C & _); split; [split; [exact B|]|exact C]; pose proof (Hfit (length ks)) as Hp; rewrite firstn_all in Hp; exact Hp).
  (* the rows, as a function of the state *)
  set (lns := fun u : sui (list Z) => map (map Ch) (rows (Glance (query (dom u)) (Z.to_nat (cursor (dom u))) None))).
  assert (Lns : forall u d, follows u d -> lns u = map (map Ch) (rows d)).
  { clear. intros u d (A & B & C & D & E). unfold lns. rewrite E. cbn [query cursor]. rewrite Nat2Z.id. reflexivity. }
  assert (Hview : forall k, vw (fold_left up (firstn k msgs) m0) = view_bytes (lns (fold_left up (firstn k msgs) m0))).
  { intros k. destruct (Hreach k) as (d & Hs & _). rewrite (Lns _ d Hs). apply view_lines. exact Hs. }
  assert (Hline : forall k, exists d, good d /\ lns (fold_left up (firstn k msgs) m0) = map (map Ch) (rows d)).
  { intros k. destruct (Hreach k) as (d & Hs & Hg). exists d. split; [exact Hg|apply Lns, Hs]. }
  assert (Eo : session zw (sui (list Z)) keymsg up vw (fun _ => None) false m0 (map Handle msgs) =
               session zw (sui (list Z)) keymsg up (fun p => view_bytes (lns p)) (fun _ => None) false m0 (map Handle msgs)).
  { unfold session. assert (Eb : begin zw (sui (list Z)) vw false m0 = begin zw (sui (list Z)) (fun p => view_bytes (lns p)) false m0).
    { unfold begin, render_view. cbn [mdl rend susp]. pose proof (Hview 0%nat) as E0. cbn [firstn fold_left] in E0. rewrite E0. reflexivity. }
    rewrite Eb. destruct (begin zw (sui (list Z)) (fun p => view_bytes (lns p)) false m0) as (p0, o0) eqn:E0.
    assert (Ep : mdl (sui (list Z)) p0 = m0).
    { unfold begin, render_view in E0. cbn [mdl rend susp] in E0. destruct (irender _ _ _). injection E0 as <- _. reflexivity. }
    rewrite (session_ext InSpec.every (fun l => Z.of_nat (length l)) cw zw W every_single Hcw (sui (list Z)) keymsg up vw (fun p => view_bytes (lns p)) (fun _ => None) false msgs p0); [reflexivity|].
    intros k _. rewrite Ep. apply Hview. }
  assert (Ead : adm cw zw W H 0 0 false [] (SRender (lns m0) :: calls (sui (list Z)) keymsg up lns (fun _ => None) m0 msgs)).
  { destruct (Hline 0%nat) as (d & Gd & Ed). cbn [firstn fold_left] in Ed. cbn [adm]. rewrite Ed. destruct (rows_frame d Gd) as (O1 & O2 & O3 & O4).
    change (keep 0 (map (map Ch) (rows d))) with (map (map Ch) (rows d)). change (fitted (rdw zw) 0) with (fun l : list item => l).
    split; [exact O1|]. split; [exact O2|]. split; [exact O3|]. split; [exact O4|]. split; [congruence|]. split; [discriminate|].
    apply shapes_adm; [exact Gd|]. intros k _. apply Hline. }
  pose proof (C255_screen_shows_the_model zw (sui (list Z)) keymsg up lns (fun _ => None) cw W H t m0 msgs ltac:(lia) T1 T2 T3 T4 T5 T6 T7 Ead) as C.
  cbn zeta in C. fold (current (sui (list Z)) keymsg up m0 msgs) in C.
  assert (Ean : announced keymsg (fun _ => None) msgs = (0, 0)).
  { unfold announced. generalize (0, 0). clear. induction msgs as [|a l IH]; intros z; [reflexivity|apply IH]. }
  rewrite Ean in C. destruct C as (row & R1 & R2 & R3).
  change (current (sui (list Z)) keymsg up m0 msgs) with m in R2. rewrite (Lns m _ Hm) in R2.
  split.
  { destruct Hm as (_ & _ & _ & D & E). rewrite E. unfold selected_value. cbn [options SelModel.chosen]. unfold at_. rewrite map_length, seq_length. destruct (picked_ g) as [i|]; [|reflexivity].
    replace ((0 <=? Z.of_nat i) && _) with true by lia. rewrite Nat2Z.id, nth_error_map. rewrite (nth_error_nth' (seq 0 n) O) by (rewrite seq_length; exact D). rewrite seq_nth by exact D. cbn [option_map plus]. rewrite Nat2Z.id. reflexivity. }
  exists row. split; [exact R1|].
  assert (Et' : t' = emu cw t (snd (session zw (sui (list Z)) keymsg up (fun p => view_bytes (lns p)) (fun _ => None) false m0 (map Handle msgs)))) by (unfold t'; rewrite Eo; reflexivity).
  split.
  - intros j x Hx Hj. pose proof (R2 j x Hx Hj) as R. rewrite Et', R.
    change (keep 0 (map (map Ch) (rows g))) with (map (map Ch) (rows g)). change (fitted (rdw zw) 0) with (fun l : list item => l). rewrite map_id.
    assert (Hp : forall s, Forall single_width s -> paint cw s = map (fun c => (c, Single)) s).
    { clear -Hcw. intros s Hs0. induction Hs0 as [|y s Hy Hs IH]; [reflexivity|]. cbn [paint flat_map map]. destruct (Hcw y Hy) as [E1 _]. rewrite E1. cbn [Z.eqb Pos.eqb app]. f_equal. exact IH. }
    change (@nil item) with (map Ch []). rewrite (map_nth (map Ch)). rewrite visible_chars, Hp.
    + change blankc with ((fun c => (c, Single)) 32). now rewrite map_nth.
    + pose proof (rows_ok g (proj1 Gg)) as Sg. rewrite Forall_forall in Sg. destruct (nth_in_or_default j (rows g) []) as [I|E]; [apply Sg; exact I|rewrite E; constructor].
  - intros x y Hy. rewrite Et'. apply R3. exact Hy.
Qed.
End Screen.

(** A case: three options on a 20 x 7 terminal, each keystroke in its own read: "a" leaves apple and banana, Down marks banana, Enter chooses it,
    "n" leaves banana alone: one row less. *)
Fixpoint starts (q l : list Z) : bool := match q, l with [], _ => true | x :: q', y :: l' => (x =? y) && starts q' l' | _, [] => false end.
Fixpoint has (l q : list Z) : bool := starts q l || match l with [] => false | _ :: r => has r q end.
Definition se_options : list (list Z) := [zs "apple"; zs "cherry"; zs "banana"].
Definition se_case : list stroke := [Chr 97; Fun [27; 91; 66] (named KDown); Chr 13; Chr 110].
Notation se_heap := (fun p => enc (nth (Z.to_nat p) se_options [])).
Definition se_model (ks : list stroke) : sui (list Z) := fold_left (se_update se_heap) (delivered (map stroke_bytes ks)) (se_new se_heap has 3).
Definition se_screen (ks : list stroke) : term :=
  emu (fun _ => 1) (blank_term 20 7 false) (snd (session (fun _ => false) (sui (list Z)) keymsg (se_update se_heap) (se_view se_heap (zs "Pick:")) (fun _ => None) false (se_new se_heap has 3) (map Handle (delivered (map stroke_bytes ks))))).
Definition se_row (ks : list stroke) (y : Z) : list Z := map (fun x => tch (grid (se_screen ks) (Z.of_nat x) y)) (seq 0 12).
Example C362_case : (forall l, has l [] = true) /\ Forall select_stroke se_case /\ arrives se_case (map stroke_bytes se_case) /\
  Forall (fun i => Z.of_nat (length (typed_ (glanced se_options has (firstn i se_case)))) + 8 < 20) (seq 0 6) /\
  glanced se_options has se_case = Glance (zs "an") 0 (Some 2%nat) /\ selected_value se_heap (dom (se_model se_case)) = Some (zs "banana") /\
  rows se_options has (zs "Pick:") (glanced se_options has (firstn 2 se_case)) = [zs "Pick:"; []; zs "  apple"; zs "> banana"; []; zs "Filter: a"] /\
  map (se_row (firstn 2 se_case)) [2; 3; 5]%Z = [zs "  apple     "; zs "> banana    "; zs "Filter: a   "] /\
  map (se_row se_case) [2; 3; 4; 5]%Z = [zs "> banana    "; zs "            "; zs "Filter: an  "; zs "            "].
Proof.
  split; [|split; [|split; [|split; [|split; [|split; [|split; [|split]]]]]]].
  - intros [|x l]; reflexivity.
  - repeat (constructor; [split; [cbn; unfold scalar; try lia; auto 10|cbn; try lia; try exact Logic.I]|]). constructor.
  - apply own_reads_arrive.
  - repeat (constructor; [vm_compute; reflexivity|]). constructor.
  - vm_compute. reflexivity.
  - vm_compute. reflexivity.
  - vm_compute. reflexivity.
  - vm_compute. reflexivity.
  - vm_compute. reflexivity.
Qed.

Print Assumptions C362_marked_option_is_chosen.
