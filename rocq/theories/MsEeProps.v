(** C363: end to end, the options a MultiSelect delivers are the ones with a tick on the terminal. *)
From Coq Require Import String Ascii Sorting.Sorted Sorting.Permutation.
From Verif Require Import Prelude Utf8 TermEmu RenderEmu InlineModel InlineSpec TruncProofs TruncItems InlineEmu InlineFrames InlineProps PdModel PdProps.
From Verif Require Import KeysModel KeysSpec KeysProofs KeysMixProps EeProps TaEeProps.
From Verif Require Import SelModel SelProofs SelEeModel SelEeProps MsEeModel.
Close Scope string_scope. Open Scope list_scope. Open Scope Z_scope.

(** ** Specification: what somebody in front of the terminal sees and does *)
Section Spec.
Variable labels : list (list Z).                        (* the options' texts *)
Variable accept : list Z -> list Z -> bool.             (* does the option with this text (UTF-8) match what was typed? *)
Variable most : nat.                                    (* the most options that may be ticked; 0: any number *)
Notation matching := (matching labels accept).          (* the numbers of the options that match (SelEeProps) *)
(** What was typed into the filter, which of the matching options is marked, and the options with a tick. *)
Record sight := Sight { entered : list Z; at_row : nat; ticks : list nat }.
Definition ticked (t : list nat) (i : nat) : bool := existsb (Nat.eqb i) t.
Definition tick (t : list nat) (i : nat) : list nat :=
  if ticked t i then t else if (0 <? most)%nat && (most <=? length t)%nat then t else i :: t.
Definition flip (t : list nat) (i : nat) : list nat := if ticked t i then filter (fun j => negb (j =? i)%nat) t else tick t i.
Definition refilter (g : sight) (q : list Z) : sight := Sight q (Nat.min (at_row g) (length (matching q) - 1)) (ticks g).
Definition go (g : sight) (i : nat) : sight := Sight (entered g) (Nat.min i (length (matching (entered g)) - 1)) (ticks g).
Definition with_ticks (g : sight) (t : list nat) : sight := Sight (entered g) (at_row g) t.
Definition hit (g : sight) (k : stroke) : sight :=
  match k with
  | Chr x =>
      if x =? 32 then with_ticks g (match nth_error (matching (entered g)) (at_row g) with Some i => flip (ticks g) i | None => ticks g end)   (* Space *)
      else if (x =? 127) || (x =? 8) then match entered g with [] => g | q => refilter g (removelast q) end
      else if x =? 107 then go g (at_row g - 1)                                           (* k *)
      else if x =? 106 then go g (at_row g + 1)                                           (* j *)
      else if x =? 103 then go g 0                                                        (* g *)
      else if x =? 71 then go g (length labels)                                           (* G *)
      else if x =? 97 then with_ticks g (fold_left tick (matching (entered g)) (ticks g)) (* a: all that match, from the top *)
      else if x =? 110 then with_ticks g []                                               (* n *)
      else if x <=? 32 then g
      else refilter g (entered g ++ [x])
  | Fun _ m => match ktype m with KUp => go g (at_row g - 1) | KDown => go g (at_row g + 1) | KHome => go g 0 | KEnd => go g (length labels) | _ => g end
  | Esc => refilter g []
  | Unk _ _ => g
  end.
Definition seen (ks : list stroke) : sight := fold_left hit ks (Sight [] 0 []).
(** The rows: the title with the counts and an empty row (none without a title), up to ten of the matching options with the marked one
    among them, an empty row, the filter, an empty row, the help. *)
Variable numeral : nat -> list Z.
Definition title_row (title : list Z) (g : sight) : list Z :=
  title ++ match labels with [] => [] | _ => zs " (" ++ numeral (length (ticks g)) ++ zs " of " ++ numeral (length labels) ++ zs " selected)" end.
Definition tick_row (g : sight) (k : nat) : list Z :=
  (if (k =? at_row g)%nat then zs "> " else zs "  ") ++ (if ticked (ticks g) (nth k (matching (entered g)) O) then zs "[x] " else zs "[ ] ") ++ nth (nth k (matching (entered g)) O) labels [].
Definition tick_rows (g : sight) : list (list Z) :=
  match matching (entered g) with
  | [] => [zs (match entered g with [] => "(no options)" | _ => "(no matches)" end)%string]
  | m => firstn 10 (skipn (at_row g - 9) (map (tick_row g) (seq 0 (length m))))
  end.
Definition help : list Z := zs "  a: all  n: none  Space: toggle  Enter: confirm".
Definition lines (title : list Z) (g : sight) : list (list Z) :=
  match title with [] => [] | _ => [title_row title g; []] end ++ tick_rows g ++ [[]; match entered g with [] => zs "Type to filter..." | q => zs "Filter: " ++ q end; []; help].
End Spec.

(** ** Proofs *)
Lemma mem_nat i t : mem (Z.of_nat i) (map Z.of_nat t) = ticked t i.
Proof. unfold mem, ticked. induction t as [|a t IH]; [reflexivity|]. cbn [map existsb]. rewrite IH. f_equal. destruct (Nat.eqb_spec i a); lia. Qed.
Lemma ticked_in t i : ticked t i = true <-> In i t.
Proof. unfold ticked. rewrite existsb_exists. split; [intros (j & I & E); apply Nat.eqb_eq in E; subst; auto|intros I; exists i; split; [auto|apply Nat.eqb_refl]]. Qed.
Lemma sorted_eq l1 : forall l2, StronglySorted Z.lt l1 -> StronglySorted Z.lt l2 -> (forall x, In x l1 <-> In x l2) -> l1 = l2.
Proof.
  induction l1 as [|a l1 IH]; intros [|b l2] S1 S2 I; auto.
  - exfalso. apply (I b). left; auto.
  - exfalso. apply (I a). left; auto.
  - inversion S1 as [|? ? S1' F1]; inversion S2 as [|? ? S2' F2]; subst. rewrite Forall_forall in F1, F2.
    assert (a = b). { destruct (proj1 (I a) (or_introl eq_refl)) as [|J]; auto. destruct (proj2 (I b) (or_introl eq_refl)) as [|K]; auto. specialize (F2 _ J). specialize (F1 _ K). lia. }
    subst. f_equal. apply IH; auto. intros x. split; intros J.
    + destruct (proj1 (I x) (or_intror J)) as [<-|]; auto. specialize (F1 _ J). lia.
    + destruct (proj2 (I x) (or_intror J)) as [<-|]; auto. specialize (F2 _ J). lia.
Qed.
Lemma filter_sorted f n : forall s, StronglySorted Z.lt (map Z.of_nat (filter f (seq s n))).
Proof.
  induction n as [|n IH]; intros s; [constructor|]. cbn [seq filter]. destruct (f s); [|apply IH]. cbn [map]. constructor; [apply IH|].
  apply Forall_map, Forall_forall. intros x I. apply filter_In in I as [I _]. apply in_seq in I. lia.
Qed.
Lemma somes_index n l : Forall (fun i => (i < n)%nat) l -> somes (map (fun p => index_of p (map Z.of_nat (seq 0 n))) (map Z.of_nat l)) = map Z.of_nat l.
Proof. induction 1 as [|i l A B IH]; [reflexivity|]. cbn [map]. rewrite index_seq by lia. rewrite Nat.sub_0_r. cbn [somes]. now rewrite IH. Qed.
Lemma at_seq n i : (i < n)%nat -> at_ (map Z.of_nat (seq 0 n)) (Z.of_nat i) = Some (Z.of_nat i).
Proof.
  intros L. unfold at_. rewrite map_length, seq_length. replace ((0 <=? Z.of_nat i) && _) with true by lia. rewrite Nat2Z.id, nth_error_map.
  rewrite (nth_error_nth' (seq 0 n) O) by (rewrite seq_length; exact L). rewrite seq_nth by exact L. reflexivity.
Qed.
Lemma somes_at n l : Forall (fun i => (i < n)%nat) l -> somes (map (fun i => at_ (map Z.of_nat (seq 0 n)) i) (map Z.of_nat l)) = map Z.of_nat l.
Proof. induction 1 as [|i l A B IH]; [reflexivity|]. cbn [map]. rewrite at_seq by exact A. cbn [somes]. now rewrite IH. Qed.

Section MsEe.
Variables (labels : list (list Z)) (accept : list Z -> list Z -> bool) (most : nat).
Notation heap := (fun p => enc (nth (Z.to_nat p) labels [])).
Notation n := (length labels).
Notation mt := (matching labels accept).
Notation hit := (hit labels accept most).

Lemma mt_small q : Forall (fun i => (i < n)%nat) (mt q).
Proof using. clear. apply Forall_forall. intros i I. unfold matching in I. apply filter_In in I as [I _]. apply in_seq in I. lia. Qed.
Definition tracks (u : mui (list Z)) (g : sight) : Prop :=
  mfilterable u = true /\ NoDup (ticks g) /\ Forall (fun i => (i < n)%nat) (ticks g) /\
  picked (mdom u) = Sn (map Z.of_nat (ticks g)) 0 (Z.of_nat most) /\
  follows labels accept (SU (base (mdom u)) true) (Glance (entered g) (at_row g) None).
Lemma tracks_new : (forall l, accept l [] = true) -> tracks (me_new heap accept n most) (Sight [] 0 []).
Proof using.
  clear. intros Hall. split; [reflexivity|]. split; [constructor|]. split; [constructor|]. split; [|apply follows_new; exact Hall].
  unfold me_new, msteps. cbn [fold_left mstep]. replace (Z.of_nat most <? 0) with false by lia. cbn [mdom picked with_constraints]. unfold new_selection.
  cbn [umin umax mfilterable ticks map]. change (0 <? 0) with false. cbn [andb indices idx fold_right with_selected fold_left]. replace (Z.of_nat most <? 0) with false by lia. idtac. cbn. replace (Z.of_nat most <? 0) with false by lia. rewrite andb_false_r. reflexivity.
Qed.
Lemma base_tracks u g f q i : tracks u g -> follows labels accept (SU (f (base (mdom u))) true) (Glance q i None) -> tracks (put u (on_base (mdom u) f)) (Sight q i (ticks g)).
Proof using. clear. intros (A & B & C & D & E) F. split; [exact A|]. split; [exact B|]. split; [exact C|]. split; [exact D|exact F]. Qed.
Lemma tick_ok t i : (i < n)%nat -> NoDup t -> Forall (fun i => (i < n)%nat) t -> NoDup (tick most t i) /\ Forall (fun i => (i < n)%nat) (tick most t i).
Proof using.
  clear. intros L N F. unfold tick. destruct (ticked t i) eqn:E; [auto|]. destruct (_ && _); [auto|]. split; constructor; auto. intros I. apply ticked_in in I. congruence.
Qed.
Lemma ticks_ok l : forall t, Forall (fun i => (i < n)%nat) l -> NoDup t -> Forall (fun i => (i < n)%nat) t -> NoDup (fold_left (tick most) l t) /\ Forall (fun i => (i < n)%nat) (fold_left (tick most) l t).
Proof using. clear. induction l as [|i l IH]; intros t F N T; [auto|]. inversion F; subst. cbn [fold_left]. destruct (tick_ok t i) as [A B]; auto. Qed.
Notation sn t := (Sn (map Z.of_nat t) 0 (Z.of_nat most)).
Lemma room_nat t : can_select (sn t) = negb ((0 <? most)%nat && (most <=? length t)%nat).
Proof using. clear. unfold can_select, cnt. cbn [mx idx]. rewrite map_length. destruct (Nat.ltb_spec 0 most), (Nat.leb_spec most (length t)); cbn [andb negb]; lia. Qed.
Lemma sel_step_nat t i : sel_step (sn t) (Z.of_nat i) = sn (tick most t i).
Proof using.
  clear. unfold sel_step, toggle_idx. cbn [idx mn mx]. rewrite mem_nat, room_nat. unfold tick. destruct (ticked t i); cbn [negb andb]; [reflexivity|].
  destruct ((0 <? most)%nat && _); cbn [negb]; [reflexivity|]. replace (Z.of_nat i <? 0) with false by lia. reflexivity.
Qed.
Lemma all_nat l : forall t, fold_left sel_step (map Z.of_nat l) (sn t) = sn (fold_left (tick most) l t).
Proof using. clear. induction l as [|i l IH]; intros t; [reflexivity|]. cbn [map fold_left]. rewrite sel_step_nat. apply IH. Qed.
Lemma toggle_nat t i : toggle_idx (sn t) (Z.of_nat i) = sn (flip most t i).
Proof using.
  clear. unfold toggle_idx, flip. replace (Z.of_nat i <? 0) with false by lia. cbn [idx mn mx]. rewrite mem_nat, room_nat. unfold tick. destruct (ticked t i) eqn:E.
  - f_equal. rewrite filter_nat. f_equal. apply filter_ext. intros j. destruct (Nat.eqb_spec j i); f_equal; lia.
  - destruct ((0 <? most)%nat && _); reflexivity.
Qed.
Lemma flip_ok t i : (i < n)%nat -> NoDup t -> Forall (fun i => (i < n)%nat) t -> NoDup (flip most t i) /\ Forall (fun i => (i < n)%nat) (flip most t i).
Proof using.
  clear. intros L N F. unfold flip. destruct (ticked t i) eqn:E; [|apply tick_ok; auto]. split; [apply NoDup_filter; auto|]. rewrite Forall_forall in *. intros j J. apply filter_In in J as [J _]. auto.
Qed.
Lemma picked_tracks u g p t : tracks u g -> NoDup t -> Forall (fun i => (i < n)%nat) t -> p = sn t -> tracks (put u (M (base (mdom u)) p)) (with_ticks g t).
Proof using. clear. intros (A & B & C & D & E) N F ->. split; [exact A|]. split; [exact N|]. split; [exact F|]. split; [reflexivity|exact E]. Qed.
Lemma values u g : tracks u g -> selected_values heap (mdom u) = map (fun i => enc (nth i labels [])) (filter (ticked (ticks g)) (seq 0 n)).
Proof using.
  clear. intros (A & B & C & D & (_ & _ & _ & _ & E)). unfold selected_values. rewrite D. cbn [dom] in E. rewrite E. cbn [options].
  assert (Ei : indices (sn (ticks g)) = map Z.of_nat (filter (ticked (ticks g)) (seq 0 n))).
  { apply sorted_eq; [apply indices_sorted; cbn [idx]; apply FinFun.Injective_map_NoDup; [intros x y; apply Nat2Z.inj|exact B]|apply filter_sorted|].
    intros x. split; intros I.
    - apply (Permutation_in _ (Permutation_sym (indices_perm _))) in I. cbn [idx] in I. apply in_map_iff in I as (i & <- & I). apply in_map, filter_In. split; [apply in_seq; rewrite Forall_forall in C; specialize (C i I); lia|now apply ticked_in].
    - apply in_map_iff in I as (i & <- & I). apply filter_In in I as [_ I]. apply ticked_in in I. apply (Permutation_in _ (indices_perm _)). cbn [idx]. now apply in_map. }
  rewrite Ei, somes_at.
  - rewrite map_map. apply map_ext. intros i. now rewrite Nat2Z.id.
  - apply Forall_forall. intros i I. apply filter_In in I as [I _]. apply in_seq in I. lia.
Qed.

Lemma hit_tracks u g k : tracks u g -> select_stroke k -> tracks (fold_left (me_update heap) (stroke_msgs k) u) (hit g k).
Proof using.
  clear. intros F [K1 K2]. pose proof F as (Fa & Fb & Fc & Fd & Fe). pose proof (move_cases labels accept _ _ Fe) as (M1 & M2 & M3 & M4). cbn [dom mark] in M1, M2, M3, M4.
  assert (Q : query (base (mdom u)) = entered g) by (destruct Fe as (_ & _ & _ & _ & E); cbn [dom] in E; rewrite E; reflexivity).
  assert (Typed : Forall (fun x => 33 <= x <= 126) (entered g)) by apply Fe.
  assert (Re : forall q, Forall (fun x => 33 <= x <= 126) q -> tracks (put u (on_base (mdom u) (fun s => set_query heap s q))) (refilter labels accept g q)).
  { intros q Hq. apply (base_tracks u g (fun s => set_query heap s q)); [exact F|]. exact (retype_follows labels accept _ _ q Fe Hq). }
  assert (Sp : match nth_error (mt (entered g)) (at_row g) with Some i => toggle (mdom u) = M (base (mdom u)) (toggle_idx (picked (mdom u)) (Z.of_nat i)) /\ (i < n)%nat | None => toggle (mdom u) = mdom u end).
  { unfold toggle. destruct Fe as (_ & _ & _ & _ & E). cbn [dom typed_ mark picked_] in E. rewrite E. cbn [filtered cursor options]. unfold at_. rewrite map_length.
    destruct (nth_error (mt (entered g)) (at_row g)) as [i|] eqn:Ei.
    - assert (L : (at_row g < length (mt (entered g)))%nat) by (apply nth_error_Some; congruence). replace ((0 <=? Z.of_nat (at_row g)) && _) with true by lia.
      rewrite Nat2Z.id, nth_error_map, Ei. cbn [option_map]. assert (L2 : (i < n)%nat) by (pose proof (mt_small (entered g)) as S; rewrite Forall_forall in S; apply S; eapply nth_error_In; eauto).
      rewrite index_seq by lia. rewrite Nat.sub_0_r. auto.
    - apply nth_error_None in Ei. replace ((0 <=? Z.of_nat (at_row g)) && _) with false by lia. reflexivity. }
  assert (Put : put u (mdom u) = u) by (destruct u; reflexivity).
  destruct k as [x|b m| |ps f]; cbn [stroke_msgs MsEeProps.hit].
  - unfold char_msgs.
    destruct ((x =? 13) || (x =? 10)) eqn:E13.
    { replace (x =? 32) with false by lia. replace ((x =? 127) || (x =? 8)) with false by lia. replace (x =? 107) with false by lia. replace (x =? 106) with false by lia. replace (x =? 103) with false by lia. replace (x =? 71) with false by lia.
      replace (x =? 97) with false by lia. replace (x =? 110) with false by lia. replace (x <=? 32) with true by lia.
      cbn [fold_left]. unfold me_update, mstep, mhandle_key. cbn [maction_of ktype fst]. destruct (can_confirm _); exact F. }
    destruct ((x =? 127) || (x =? 8)) eqn:E127.
    { replace (x =? 32) with false by lia. cbn [fold_left]. unfold me_update, mstep, mhandle_key, mfilter_input. cbn [maction_of ktype fst]. rewrite Fa, Q.
      assert (Hq : Forall (fun x => 33 <= x <= 126) (removelast (entered g))).
      { destruct (entered g) as [|y q] eqn:Eq; [constructor|]. rewrite (app_removelast_last (l := y :: q) 0) in Typed by discriminate. apply Forall_app in Typed. tauto. }
      pose proof (Re _ Hq) as R. unfold on_base in *. destruct (entered g) as [|y q] eqn:Eq; [exact F|exact R]. }
    destruct (x =? 9) eqn:E9.
    { replace (x =? 32) with false by lia. replace (x =? 107) with false by lia. replace (x =? 106) with false by lia. replace (x =? 103) with false by lia. replace (x =? 71) with false by lia.
      replace (x =? 97) with false by lia. replace (x =? 110) with false by lia. replace (x <=? 32) with true by lia.
      cbn [fold_left]. unfold me_update, mstep, mhandle_key, mfilter_input. cbn [maction_of ktype fst]. rewrite Fa. exact F. }
    destruct (x =? 32) eqn:E32.
    { cbn [fold_left]. unfold me_update, mstep, mhandle_key. cbn [maction_of ktype fst].
      destruct (nth_error (mt (entered g)) (at_row g)) as [i|].
      - destruct Sp as [-> L]. destruct (flip_ok (ticks g) i L Fb Fc). apply picked_tracks; auto. rewrite Fd. apply toggle_nat.
      - rewrite Sp, Put. destruct g; exact F. }
    destruct (x <? 32) eqn:El.
    { replace ((1 <=? x) && (x <=? 26)) with false by (cbn [In] in K2; lia). replace (x =? 107) with false by lia. replace (x =? 106) with false by lia. replace (x =? 103) with false by lia. replace (x =? 71) with false by lia.
      replace (x =? 97) with false by lia. replace (x =? 110) with false by lia. replace (x <=? 32) with true by lia. exact F. }
    replace ((1 <=? x) && (x <=? 26)) with false by lia. cbn [fold_left]. unfold me_update, mstep, mhandle_key, maction_of, mfilter_input. cbn [ktype krune rune_key fst].
    destruct (x =? 107); [cbn [fst]; apply (base_tracks u g move_up); [exact F|exact M1]|]. destruct (x =? 106); [cbn [fst]; apply (base_tracks u g move_down); [exact F|exact M2]|].
    destruct (x =? 103); [cbn [fst]; apply (base_tracks u g to_start); [exact F|exact M3]|]. destruct (x =? 71); [cbn [fst]; apply (base_tracks u g to_end); [exact F|exact M4]|].
    destruct (x =? 97).
    { cbn [fst]. destruct (ticks_ok (mt (entered g)) (ticks g) (mt_small _) Fb Fc). unfold select_all. apply picked_tracks; auto.
      rewrite Fd. pose proof Fe as (_ & _ & _ & _ & E). cbn [dom typed_ mark picked_] in E. rewrite E. cbn [options filtered]. rewrite somes_index by apply mt_small. apply all_nat. }
    destruct (x =? 110); [cbn [fst]; unfold select_none; apply picked_tracks; auto; [constructor|rewrite Fd; reflexivity]|].
    replace (x <=? 32) with false by lia. cbn [fst]. rewrite Fa.
    assert (Ex : enc_rune x = [x]) by (unfold enc_rune; replace (x <? 128) with true by (cbn [In] in K2; lia); reflexivity). rewrite Ex.
    assert (Hq : Forall (fun x => 33 <= x <= 126) (entered g ++ [x])) by (apply Forall_app; split; [exact Typed|]; constructor; [cbn [In] in K2; lia|constructor]).
    pose proof (Re _ Hq) as R. unfold on_base in *. rewrite Q. exact R.
  - cbn [fold_left]. unfold me_update, mstep, mhandle_key. cbn [stroke_ok] in K1.
    assert (Hsh : ktype m <> KEnter /\ ktype m <> KEsc /\ ktype m <> KCtrlC /\ ktype m <> KRune /\ ktype m <> KBackspace /\ ktype m <> KSpace).
    { cbn [csi_keys In] in K1. decompose [or] K1; try contradiction; match goal with X : _ = _ |- _ => injection X as <- <- end; repeat split; discriminate. }
    destruct Hsh as (H1 & H2 & H3 & H4 & H5 & H6). unfold maction_of, mfilter_input.
    destruct (ktype m) eqn:Em; try congruence; cbn [fst]; rewrite ?Fa; try exact F;
      first [apply (base_tracks u g move_up); [exact F|exact M1] | apply (base_tracks u g move_down); [exact F|exact M2] | apply (base_tracks u g to_start); [exact F|exact M3] | apply (base_tracks u g to_end); [exact F|exact M4]].
  - cbn [fold_left]. unfold me_update, mstep, mhandle_key. cbn [maction_of ktype fst]. apply Re. constructor.
  - exact F.
Qed.
Lemma hits_track ks : forall u g, tracks u g -> Forall select_stroke ks -> tracks (fold_left (me_update heap) (flat_map stroke_msgs ks) u) (fold_left hit ks g).
Proof using.
  clear. induction ks as [|k ks IH]; intros u g S F; [exact S|]. inversion F; subst. cbn [flat_map fold_left]. rewrite fold_left_app. apply IH; auto. apply hit_tracks; auto.
Qed.
End MsEe.

(** *** What is drawn *)
Section View.
Variables (labels : list (list Z)) (accept : list Z -> list Z -> bool) (most : nat) (title : list Z).
Notation heap := (fun p => enc (nth (Z.to_nat p) labels [])).
Notation n := (length labels).
Notation mt := (matching labels accept).
Notation tracks := (tracks labels accept most).
Notation numeral := (fun k => dec (Z.of_nat k)).
Notation tick_rows := (tick_rows labels accept).
Lemma window_of u g : follows labels accept u g -> let o := (mark g - 9)%nat in
  render_visible (dom u) = Some (map (fun i => (Z.of_nat (nth (o + i) (mt (typed_ g)) O), Z.of_nat (o + i), (o + i =? mark g)%nat)) (seq 0 (Nat.min 10 (length (mt (typed_ g)) - o)))).
Proof using.
  clear. intros (A & B & C & D & E) o. unfold render_visible. rewrite E. unfold nfilt, adjusted. cbn [filtered scroll cursor height]. rewrite map_length.
  set (N := length (mt (typed_ g))) in *. destruct (Z.of_nat N =? 0) eqn:E0.
  { replace (N - o)%nat with O by lia. rewrite Nat.min_0_r. reflexivity. }
  replace (Z.of_nat (mark g) <? 0) with false by lia.
  assert (Es : (if 0 + 10 <=? Z.of_nat (mark g) then Z.of_nat (mark g) - 10 + 1 else 0) = Z.of_nat o) by (unfold o; destruct (0 + 10 <=? Z.of_nat (mark g)) eqn:X; lia).
  rewrite Es. assert (Lo : (o < N)%nat) by (unfold o; lia).
  assert (Ee : (if Z.of_nat N <? Z.of_nat o + 10 then Z.of_nat N else Z.of_nat o + 10) - Z.of_nat o = Z.of_nat (Nat.min 10 (N - o))) by (clear - Lo; clearbody o N; destruct (Z.of_nat N <? Z.of_nat o + 10) eqn:X; lia).
  rewrite Ee. replace ((Z.of_nat o <? 0) || _) with false by lia. rewrite Nat2Z.id. f_equal. apply map_ext. intros i. replace (Z.of_nat o + Z.of_nat i) with (Z.of_nat (o + i)) by lia.
  rewrite Nat2Z.id. change 0 with (Z.of_nat 0) at 1. rewrite map_nth. f_equal. destruct (Nat.eqb_spec (o + i) (mark g)); lia.
Qed.
Lemma ticks_shown u g : tracks u g -> exists rs, mrender_visible (mdom u) = Some rs /\ map (mline_text heap) (option_lines rs (entered g)) = map enc (tick_rows g).
Proof using.
  clear. intros (A & B & C & D & F). pose proof (window_of _ _ F) as Wd. cbn [dom mark typed_] in Wd. pose proof F as (_ & F2 & F3 & _ & E). cbn [dom typed_ mark] in *.
  unfold mrender_visible. rewrite Wd, D, E. cbn [options idx]. eexists. split; [reflexivity|]. unfold MsEeProps.tick_rows. destruct (mt (entered g)) as [|a m] eqn:Em.
  { cbn [length]. rewrite Nat.sub_0_l, Nat.min_0_r. destruct (entered g); reflexivity. }
  assert (Ln : length (mt (entered g)) = S (length m)) by now rewrite Em. rewrite <- Em in *. clear Em. set (N := length (mt (entered g))) in *. set (o := (at_row g - 9)%nat) in *.
  assert (Lo : (o < N)%nat) by (unfold o; lia). rewrite (window _ N o 10) by lia. assert (Kp : (0 < Nat.min 10 (N - o) <= N - o)%nat) by lia. generalize dependent (Nat.min 10 (N - o)). intros K _ Kp. rewrite map_map.
  assert (Eo : forall l q, l <> [] -> @option_lines (Z * Z * bool * bool) l q = map VOpt l) by (intros [|? ?] ? ?; [congruence|reflexivity]).
  rewrite Eo by (destruct K; [lia|cbn [seq map]; discriminate]). rewrite !map_map. apply map_ext_in. intros i Hi. apply in_seq in Hi. cbn [mline_text fst snd].
  assert (Li : (nth (o + i) (mt (entered g)) O < n)%nat) by (pose proof (mt_small labels accept (entered g)) as S; rewrite Forall_forall in S; apply S, nth_In; fold N; lia).
  rewrite index_seq by lia. rewrite Nat.sub_0_r, mem_nat. unfold mdefault_render, tick_row. cbn [ot_label ot_desc ot_disabled app]. rewrite !app_nil_r, !enc_app, Nat2Z.id. fold N. f_equal; [destruct (_ =? _)%nat; reflexivity|]. f_equal. destruct (ticked _ _); reflexivity.
Qed.
Lemma dec_enc k : 0 <= k -> enc (dec k) = dec k.
Proof using.
  clear. intros Hk. apply low_enc. destruct (dec_spec k Hk) as (_ & B & _). rewrite forallb_forall in B. apply Forall_forall. intros x I. specialize (B x I). unfold is_digit in B. lia.
Qed.
Lemma lines_drawn u g : tracks u g -> me_view heap (enc title) u = view_bytes (map (map Ch) (lines labels accept numeral title g)).
Proof using.
  clear. intros F. destruct (ticks_shown u g F) as (rs & R & O). destruct F as (A & B & C & D & F). destruct F as (_ & F2 & _ & _ & E). cbn [dom typed_] in *.
  assert (Q : query (base (mdom u)) = entered g) by (rewrite E; reflexivity). assert (Eo : Z.of_nat (length (options (base (mdom u)))) = Z.of_nat n) by (rewrite E; cbn [options]; now rewrite map_length, seq_length).
  assert (Ek : cnt (picked (mdom u)) = Z.of_nat (length (ticks g))) by (rewrite D; unfold cnt; cbn [idx]; now rewrite map_length).
  unfold me_view, mview. rewrite R, joined_nl, A, Q, Eo, Ek. unfold view_bytes. f_equal. rewrite map_map. erewrite (map_ext (fun x => line_bytes (map Ch x)) enc) by (intros; apply line_chars).
  unfold lines. rewrite !map_app, O. f_equal; [|f_equal].
  - assert (Et : forall t, t <> [] -> @map (vline (Z * Z * bool * bool)) _ (mline_text heap) [if 0 <? Z.of_nat n then VTitleCount (enc t) (Z.of_nat (length (ticks g))) (Z.of_nat n) else VTitle (enc t); VBlank] = map enc [title_row labels numeral t g; []]).
    { intros t _. cbn [map]. f_equal. unfold title_row. destruct labels as [|l r]; [cbn; now rewrite app_nil_r|]. replace (0 <? Z.of_nat (length (l :: r))) with true by (cbn [length]; lia). cbn [mline_text].
      rewrite !enc_app, !dec_enc by lia. reflexivity. }
    destruct title as [|x r] eqn:Ex; [reflexivity|]. rewrite <- (Et (x :: r)) by discriminate. pose proof (enc_rune_ne x). cbn [enc flat_map]. destruct (enc_rune x) as [|y z] eqn:Exx; [congruence|]. reflexivity.
  - cbn [filter_lines map app]. destruct (entered g) as [|y q] eqn:Eq; [reflexivity|]. cbn [mline_text]. rewrite enc_app, (typed_enc (y :: q)) by exact F2. reflexivity.
Qed.
End View.

(** *** The screen *)
Lemma digits_len f : forall x acc d, 0 <= x < 10 ^ Z.of_nat d -> (1 <= d)%nat -> (length (digits f x acc) <= d + length acc)%nat.
Proof.
  induction f as [|f IH]; intros x acc d Hx Hd; [cbn; lia|]. cbn [digits]. destruct (x <? 10) eqn:E; [cbn [length]; lia|].
  destruct d as [|[|d]]; [lia|cbn in Hx; lia|]. pose proof (IH (x / 10) ((48 + x mod 10) :: acc) (S d)) as I. cbn [length] in I.
  rewrite Nat2Z.inj_succ, Z.pow_succ_r in Hx by lia. assert (0 <= x / 10 < 10 ^ Z.of_nat (S d)) by (split; [apply Z.div_pos; lia|apply Z.div_lt_upper_bound; lia]).
  specialize (I H ltac:(lia)). lia.
Qed.
Lemma dec_len x d : 0 <= x < 10 ^ Z.of_nat d -> (1 <= d)%nat -> (length (dec x) <= d)%nat.
Proof. intros Hx Hd. unfold dec. replace (x <? 0) with false by lia. pose proof (digits_len (S (Z.to_nat (Z.log2 x))) x [] d Hx Hd) as L. cbn [length] in L. lia. Qed.
Lemma dec_plain k : 0 <= k -> Forall single_width (dec k).
Proof. intros Hk. destruct (dec_spec k Hk) as (_ & B & _). rewrite forallb_forall in B. apply Forall_forall. intros x I. specialize (B x I). unfold is_digit in B. left. lia. Qed.

Section Screen.
Variables (cw : Z -> Z) (zw : Z -> bool) (W H : Z) (labels : list (list Z)) (accept : list Z -> list Z -> bool) (most places : nat) (title : list Z).
Notation heap := (fun p => enc (nth (Z.to_nat p) labels [])).
Notation n := (length labels).
Notation mt := (matching labels accept).
Notation tracks := (tracks labels accept most).
Notation num := (fun k => dec (Z.of_nat k)).
Notation lines := (lines labels accept num title).
Notation tick_rows := (tick_rows labels accept).
Hypothesis Hcw : forall x, single_width x -> cw x = 1 /\ zw x = false.
Hypothesis Hall : forall l, accept l [] = true.
(* the number of options has at most [places] digits *)
Hypothesis Hn : (1 <= places)%nat /\ Z.of_nat n < 10 ^ Z.of_nat places.
Hypothesis Ht : Forall single_width title /\ Z.of_nat (length title) + 16 + 2 * Z.of_nat places < W.
Hypothesis Hl : Forall (fun l => Forall single_width l /\ Z.of_nat (length l) + 6 < W) labels.
Hypothesis HW : 49 <= W.
Hypothesis HH : Z.of_nat (Nat.max 1 (Nat.min 10 n)) + 6 <= H.

Definition holds (g : sight) : Prop :=
  (Forall (fun x => 33 <= x <= 126) (entered g) /\ Z.of_nat (length (entered g)) + 8 < W) /\ (at_row g <= length (mt (entered g)) - 1)%nat /\ (length (ticks g) <= n)%nat.
Definition row_ok (l : list Z) : Prop := Forall single_width l /\ Z.of_nat (length l) < W.
Lemma tick_rows_ok g : Forall (fun l => row_ok l /\ head_ok l) (tick_rows g).
Proof using All.
  unfold MsEeProps.tick_rows. assert (Z0 : forall s, s = "(no options)"%string \/ s = "(no matches)"%string -> row_ok (zs s) /\ head_ok (zs s)).
  { intros s [-> | ->]; (split; [split; [apply zs_plain; repeat (constructor; [cbn; lia|]); constructor|cbn; lia]|cbn; auto]). }
  destruct (mt (entered g)) as [|a m] eqn:Em; [constructor; [|constructor]; apply Z0; destruct (entered g); auto|]. rewrite <- Em. clear Z0.
  apply Forall_forall. intros l I.
  assert (I' : In l (map (tick_row labels accept g) (seq 0 (length (mt (entered g)))))).
  { rewrite <- (firstn_skipn (at_row g - 9) (map _ _)), in_app_iff. right. rewrite <- (firstn_skipn 10 (skipn _ _)), in_app_iff. left. exact I. }
  apply in_map_iff in I' as (k & <- & _). unfold tick_row. set (l := nth _ labels []).
  assert (Hnl : Forall single_width l /\ Z.of_nat (length l) + 6 < W).
  { destruct (nth_in_or_default (nth k (mt (entered g)) O) labels []) as [I'|E]; [rewrite Forall_forall in Hl; apply Hl; exact I'|]. fold l in E. rewrite E. split; [constructor|cbn; lia]. }
  destruct Hnl as [N1 N2]. destruct (k =? at_row g)%nat, (ticked _ _);
    (split; [split; [apply Forall_app; split; [apply zs_plain; repeat (constructor; [cbn; lia|]); constructor|apply Forall_app; split; [apply zs_plain; repeat (constructor; [cbn; lia|]); constructor|exact N1]]
                    |rewrite !app_length; cbn [length zs map list_ascii_of_string]; lia]|cbn; auto]).
Qed.
Lemma tick_rows_len g : (at_row g <= length (mt (entered g)) - 1)%nat -> (1 <= length (tick_rows g) <= Nat.max 1 (Nat.min 10 n))%nat.
Proof using.
  clear. unfold MsEeProps.tick_rows. assert (Ln : (length (mt (entered g)) <= n)%nat) by (unfold matching; pose proof (filter_le (fun i => accept (enc (nth i labels [])) (entered g)) (seq 0 (length labels))) as L; rewrite seq_length in L; exact L).
  destruct (mt (entered g)) as [|a m] eqn:Em; [intros _; cbn [length]; lia|]. rewrite <- Em in *. intros Lm. assert (0 < length (mt (entered g)))%nat by (rewrite Em; cbn; lia).
  rewrite firstn_length, skipn_length, map_length, seq_length. lia.
Qed.
Definition hdr (g : sight) : list (list Z) := match title with [] => [] | _ => [title_row labels num title g; []] end.
Definition flt (g : sight) : list Z := match entered g with [] => zs "Type to filter..." | q => zs "Filter: " ++ q end.
Lemma lines_eq g : lines g = hdr g ++ tick_rows g ++ [[]; flt g; []; help].
Proof using. clear. reflexivity. Qed.
Lemma flt_ok g : holds g -> row_ok (flt g) /\ exists x r, flt g = x :: r /\ (x = 84 \/ x = 70).
Proof using All.
  intros ((F & L) & _). unfold flt. destruct (entered g) as [|y q].
  - split; [split; [apply zs_plain; repeat (constructor; [cbn; lia|]); constructor|cbn; lia]|]. cbn. eauto.
  - split; [|cbn; eauto]. split; [|rewrite app_length; cbn [length zs map list_ascii_of_string] in *; lia].
    apply Forall_app. split; [apply zs_plain; repeat (constructor; [cbn; lia|]); constructor|]. eapply Forall_impl; [|exact F]. intros c Hc. left. cbn beta in Hc. lia.
Qed.
Lemma help_ok : row_ok help.
Proof using All. split; [apply zs_plain; repeat (constructor; [cbn; lia|]); constructor|cbn; lia]. Qed.
Lemma title_row_ok g : holds g -> row_ok (title_row labels num title g).
Proof using All.
  intros (_ & _ & Lk). destruct Ht as [T1 T2], Hn as [N1 N2]. unfold title_row. destruct labels as [|l r] eqn:El; [rewrite app_nil_r; split; [exact T1|lia]|]. rewrite <- El in *.
  assert (L1 : (length (dec (Z.of_nat (length (ticks g)))) <= places)%nat) by (apply dec_len; lia).
  assert (L2 : (length (dec (Z.of_nat n)) <= places)%nat) by (apply dec_len; lia).
  split.
  - repeat (apply Forall_app; split); auto; try (apply dec_plain; lia); apply zs_plain; repeat (constructor; [cbn; lia|]); constructor.
  - rewrite !app_length. cbn [length zs map list_ascii_of_string] in *. lia.
Qed.
Lemma lines_ok g : holds g -> Forall row_ok (lines g).
Proof using All.
  intros F. destruct (flt_ok g F) as (F1 & _). assert (Nl : row_ok []) by (split; [constructor|cbn; lia]). rewrite lines_eq. apply Forall_app. split.
  - unfold hdr. destruct title as [|x r] eqn:Ex; [constructor|]. rewrite <- Ex in *. constructor; [apply title_row_ok; exact F|]. constructor; [exact Nl|constructor].
  - apply Forall_app. split; [eapply Forall_impl; [|apply tick_rows_ok]; cbn beta; tauto|]. constructor; [exact Nl|]. constructor; [exact F1|]. constructor; [exact Nl|]. constructor; [apply help_ok|constructor].
Qed.
Definition framed (v : list (list item)) : Prop :=
  v <> [] /\ Forall (Forall (show_ok cw (rdw zw))) v /\ Z.of_nat (length v) <= H /\ Forall (fun l => cols (rdw zw) (visible l) < W) v.
Lemma lines_length g : length (lines g) = (length (hdr g) + length (tick_rows g) + 4)%nat.
Proof using. clear. rewrite lines_eq, !app_length. cbn [length]. lia. Qed.
Lemma hdr_length g g' : length (hdr g) = length (hdr g').
Proof using. clear. unfold hdr. destruct title; reflexivity. Qed.
Lemma lines_framed g : holds g -> framed (map (map Ch) (lines g)).
Proof using All.
  intros F. pose proof (lines_ok g F) as Ok. pose proof (tick_rows_len g (proj1 (proj2 F))) as OL. pose proof (lines_length g) as RL.
  split; [intros E; apply (f_equal (@length _)) in E; rewrite map_length in E; cbn [length] in E; lia|]. split; [|split].
  - apply Forall_map. eapply Forall_impl; [|exact Ok]. intros l [Hs _]. apply chars_ok; auto.
  - rewrite map_length, RL. assert (length (hdr g) <= 2)%nat by (unfold hdr; destruct title; cbn; lia). lia.
  - apply Forall_map. eapply Forall_impl; [|exact Ok]. intros l [Hs Hlen]. rewrite visible_chars. rewrite (cols_single InSpec.every (fun l => Z.of_nat (length l)) cw zw every_single Hcw) by exact Hs. lia.
Qed.
(** When a frame has fewer rows than the one before, its last row (the help) differs from what is in its place. *)
Lemma shorter_help g g' : holds g -> holds g' -> (length (lines g') < length (lines g))%nat ->
  line_bytes (List.last (map (map Ch) (lines g')) []) <> line_bytes (nth (length (map (map Ch) (lines g')) - 1) (map (map Ch) (lines g)) []).
Proof using All.
  intros F F' L. pose proof (tick_rows_len g' (proj1 (proj2 F'))) as L1.
  assert (El : List.last (map (map Ch) (lines g')) [] = map Ch help).
  { rewrite lines_eq, !map_app. cbn [map]. rewrite !app_assoc. change (?a ++ [?b; ?c; ?d; ?e]) with (a ++ [b; c; d] ++ [e]). rewrite app_assoc. apply last_last. }
  rewrite El, line_chars. rewrite map_length. rewrite !lines_length in *. rewrite (hdr_length g g') in L. change (@nil item) with (map Ch []). rewrite map_nth, line_chars.
  replace (length (hdr g') + length (tick_rows g') + 4 - 1)%nat with (length (hdr g) + (length (tick_rows g') + 3))%nat by (rewrite (hdr_length g g'); lia).
  rewrite lines_eq. rewrite app_nth2 by lia. replace (length (hdr g) + _ - length (hdr g))%nat with (length (tick_rows g') + 3)%nat by lia.
  (* none of the rows above the help starts with two blanks and an "a" followed by ":" in this place: the third byte differs, or the row is empty *)
  destruct (Nat.lt_ge_cases (length (tick_rows g') + 3) (length (tick_rows g))) as [Q|Q].
  - rewrite app_nth1 by exact Q. unfold MsEeProps.tick_rows in Q |- * at 2. 
    destruct (mt (entered g)) as [|a m] eqn:Em; [cbn [length] in Q; lia|]. rewrite <- Em in *.
    set (l := nth _ _ []). assert (I : In l (map (tick_row labels accept g) (seq 0 (length (mt (entered g)))))).
    { assert (I : In l (firstn 10 (skipn (at_row g - 9) (map (tick_row labels accept g) (seq 0 (length (mt (entered g)))))))) by (apply nth_In; exact Q).
      rewrite <- (firstn_skipn (at_row g - 9) (map _ _)), in_app_iff. right. rewrite <- (firstn_skipn 10 (skipn _ _)), in_app_iff. left. exact I. }
    clearbody l. apply in_map_iff in I as (k & <- & _). unfold tick_row. destruct (k =? at_row g)%nat, (ticked _ _); cbn; discriminate.
  - rewrite app_nth2 by exact Q. assert (J : (length (tick_rows g') + 3 - length (tick_rows g) = 0 \/ length (tick_rows g') + 3 - length (tick_rows g) = 1 \/ length (tick_rows g') + 3 - length (tick_rows g) = 2)%nat) by lia.
    destruct J as [-> | [-> | ->]]; cbn [nth]; [cbn; discriminate| |cbn; discriminate].
    destruct (flt_ok g F) as (_ & x & r & Ef & Hx). rewrite Ef. destruct Hx as [-> | ->]; cbn; discriminate.
Qed.
Lemma holds_adm Mdl Msg (up : Mdl -> Msg -> Mdl) (f : Mdl -> list (list item)) ms :
  forall m g0, holds g0 -> (forall k, (0 < k)%nat -> exists g, holds g /\ f (fold_left up (firstn k ms) m) = map (map Ch) (lines g)) ->
  adm cw zw W H 0 0 true (map (map Ch) (lines g0)) (calls Mdl Msg up f (fun _ => None) m ms).
Proof using All.
  induction ms as [|a ms IH]; intros m g0 G0 Hf; [exact Logic.I|]. cbn [calls app adm].
  destruct (Hf 1%nat ltac:(lia)) as (g & G & E). cbn [firstn fold_left] in E. rewrite E. change (keep 0 (map (map Ch) (lines g))) with (map (map Ch) (lines g)). change (fitted (rdw zw) 0) with (fun l : list item => l).
  destruct (lines_framed g G) as (O1 & O2 & O3 & O4).
  split; [exact O1|]. split; [exact O2|]. split; [exact O3|]. split; [exact O4|]. split; [discriminate|]. split.
  { intros _ Hlt. right. apply shorter_help; auto. rewrite !map_length in Hlt. exact Hlt. }
  apply IH; [exact G|]. intros k Hk. apply (Hf (S k)). lia.
Qed.

Theorem C363_ticked_options_are_delivered : forall t ks reads,
  (* the screen: a [W] x [H] terminal, the cursor at the start of a row, blank from there on *)
  tw t = W -> th t = H -> pst t = Ground -> pend t = false -> cx t = 0 -> 0 <= cy t < H ->
  (forall x y, 0 <= x < W -> cy t <= y < H -> cell2 (grid t x y) = blankc) ->
  (* the keystrokes, what is typed always fitting its row, and how they arrive *)
  Forall select_stroke ks -> (forall i, Z.of_nat (length (entered (seen labels accept most (firstn i ks)))) + 8 < W) -> arrives ks reads ->
  let msgs := delivered reads in
  let m := fold_left (me_update heap) msgs (me_new heap accept n most) in
  let t' := emu cw t (snd (session zw (mui (list Z)) keymsg (me_update heap) (me_view heap (enc title)) (fun _ => None) false (me_new heap accept n most) (map Handle msgs))) in
  let g := seen labels accept most ks in
  snd (mhandle_key heap m (named KEnter)) = MConfirm (map (fun i => enc (nth i labels [])) (filter (ticked (ticks g)) (seq 0 n))) /\
  exists numeral, (forall k, numeral k <> [] /\ forallb is_digit (numeral k) = true /\ undec_acc 0 (numeral k) = Z.of_nat k) /\
  exists row, 0 <= row <= cy t /\
    (forall j x, 0 <= x < W -> row + Z.of_nat j < H -> cell2 (grid t' x (row + Z.of_nat j)) = (nth (Z.to_nat x) (nth j (MsEeProps.lines labels accept numeral title g) []) 32, Single)) /\
    (forall x y, 0 <= y < row -> grid t' x y = grid t x (y + (cy t - row))).
Proof using All.
  intros t ks reads T1 T2 T3 T4 T5 T6 T7 Hk Hfit Har msgs m t' g.
  set (m0 := me_new heap accept n most) in *. set (vw := me_view heap (enc title)) in *. set (up := me_update heap) in *.
  assert (Em : msgs = flat_map stroke_msgs ks) by (apply C283_keystrokes_delivered; auto; eapply Forall_impl; [|exact Hk]; intros k [A _]; exact A).
  assert (Hpre : forall i, tracks (fold_left up (flat_map stroke_msgs (firstn i ks)) m0) (seen labels accept most (firstn i ks))).
  { intros i. apply hits_track; [apply tracks_new; exact Hall|]. rewrite <- (firstn_skipn i ks) in Hk. apply Forall_app in Hk. tauto. }
  assert (Th : forall u d, tracks u d -> Z.of_nat (length (entered d)) + 8 < W -> holds d).
  { intros u d (_ & B & C & _ & (_ & Ft & Fm & _)) Hd. split; [split; [exact Ft|exact Hd]|]. split; [exact Fm|].
    rewrite <- (seq_length n 0). apply NoDup_incl_length; [exact B|]. intros x Ix. rewrite Forall_forall in C. apply in_seq. specialize (C x Ix). lia. }
  assert (Hreach : forall k, exists d, tracks (fold_left up (firstn k msgs) m0) d /\ holds d).
  { intros k. rewrite Em. destruct (msgs_prefix ks k) as (i & ->). eexists. split; [apply Hpre|]. eapply Th; [apply Hpre|apply Hfit]. }
  assert (Hm : tracks m g) by (unfold m, g; rewrite Em; pose proof (Hpre (length ks)) as Hp; rewrite firstn_all in Hp; exact Hp).
  assert (Gg : holds g) by (eapply Th; [exact Hm|]; pose proof (Hfit (length ks)) as Hp; rewrite firstn_all in Hp; exact Hp).
  (* the rows, as a function of the state *)
  set (lns := fun u : mui (list Z) => map (map Ch) (lines (Sight (query (base (mdom u))) (Z.to_nat (cursor (base (mdom u)))) (map Z.to_nat (idx (picked (mdom u))))))).
  assert (Lns : forall u d, tracks u d -> lns u = map (map Ch) (lines d)).
  { clear. intros u d (A & B & C & D & (_ & _ & _ & _ & E)). unfold lns. cbn [dom typed_ mark] in E. rewrite D, E. cbn [query cursor idx]. rewrite Nat2Z.id, map_map. rewrite (map_ext _ id Nat2Z.id), map_id. destruct d; reflexivity. }
  assert (Hview : forall k, vw (fold_left up (firstn k msgs) m0) = view_bytes (lns (fold_left up (firstn k msgs) m0))).
  { intros k. destruct (Hreach k) as (d & Hs & _). rewrite (Lns _ d Hs). eapply lines_drawn. exact Hs. }
  assert (Hline : forall k, exists d, holds d /\ lns (fold_left up (firstn k msgs) m0) = map (map Ch) (lines d)).
  { intros k. destruct (Hreach k) as (d & Hs & Hg). exists d. split; [exact Hg|apply Lns, Hs]. }
  assert (Eo : session zw (mui (list Z)) keymsg up vw (fun _ => None) false m0 (map Handle msgs) =
               session zw (mui (list Z)) keymsg up (fun p => view_bytes (lns p)) (fun _ => None) false m0 (map Handle msgs)).
  { unfold session. assert (Eb : begin zw (mui (list Z)) vw false m0 = begin zw (mui (list Z)) (fun p => view_bytes (lns p)) false m0).
    { unfold begin, render_view. cbn [mdl rend susp]. pose proof (Hview 0%nat) as E0. cbn [firstn fold_left] in E0. rewrite E0. reflexivity. }
    rewrite Eb. destruct (begin zw (mui (list Z)) (fun p => view_bytes (lns p)) false m0) as (p0, o0) eqn:E0.
    assert (Ep : mdl (mui (list Z)) p0 = m0).
    { unfold begin, render_view in E0. cbn [mdl rend susp] in E0. destruct (irender _ _ _). injection E0 as <- _. reflexivity. }
    rewrite (session_ext InSpec.every (fun l => Z.of_nat (length l)) cw zw W every_single Hcw (mui (list Z)) keymsg up vw (fun p => view_bytes (lns p)) (fun _ => None) false msgs p0); [reflexivity|].
    intros k _. rewrite Ep. apply Hview. }
  assert (Ead : adm cw zw W H 0 0 false [] (SRender (lns m0) :: calls (mui (list Z)) keymsg up lns (fun _ => None) m0 msgs)).
  { destruct (Hline 0%nat) as (d & Gd & Ed). cbn [firstn fold_left] in Ed. cbn [adm]. rewrite Ed. destruct (lines_framed d Gd) as (O1 & O2 & O3 & O4).
    change (keep 0 (map (map Ch) (lines d))) with (map (map Ch) (lines d)). change (fitted (rdw zw) 0) with (fun l : list item => l).
    split; [exact O1|]. split; [exact O2|]. split; [exact O3|]. split; [exact O4|]. split; [congruence|]. split; [discriminate|].
    apply holds_adm; [exact Gd|]. intros k _. apply Hline. }
  pose proof (C255_screen_shows_the_model zw (mui (list Z)) keymsg up lns (fun _ => None) cw W H t m0 msgs ltac:(lia) T1 T2 T3 T4 T5 T6 T7 Ead) as C.
  cbn zeta in C. fold (current (mui (list Z)) keymsg up m0 msgs) in C.
  assert (Ean : announced keymsg (fun _ => None) msgs = (0, 0)).
  { unfold announced. generalize (0, 0). clear. induction msgs as [|a l IH]; intros z; [reflexivity|apply IH]. }
  rewrite Ean in C. destruct C as (row & R1 & R2 & R3).
  change (current (mui (list Z)) keymsg up m0 msgs) with m in R2. rewrite (Lns m _ Hm) in R2.
  split.
  { unfold mhandle_key. cbn [maction_of ktype]. pose proof (values labels accept most m g Hm) as V. destruct Hm as (_ & _ & _ & D & _).
    assert (Cc : can_confirm (picked (mdom m)) = true) by (rewrite D; unfold can_confirm, cnt; cbn [mn]; lia). rewrite Cc. cbn [snd]. now rewrite V. }
  exists num. split; [intros k; destruct (dec_spec (Z.of_nat k) ltac:(lia)) as (A & B & _); split; [exact A|]; split; [exact B|apply dec_undec; lia]|].
  exists row. split; [exact R1|].
  assert (Et' : t' = emu cw t (snd (session zw (mui (list Z)) keymsg up (fun p => view_bytes (lns p)) (fun _ => None) false m0 (map Handle msgs)))) by (unfold t'; rewrite Eo; reflexivity).
  split.
  - intros j x Hx Hj. pose proof (R2 j x Hx Hj) as R. rewrite Et', R.
    change (keep 0 (map (map Ch) (lines g))) with (map (map Ch) (lines g)). change (fitted (rdw zw) 0) with (fun l : list item => l). rewrite map_id.
    assert (Hp : forall s, Forall single_width s -> paint cw s = map (fun c => (c, Single)) s).
    { clear -Hcw. intros s Hs0. induction Hs0 as [|y s Hy Hs IH]; [reflexivity|]. cbn [paint flat_map map]. destruct (Hcw y Hy) as [E1 _]. rewrite E1. cbn [Z.eqb Pos.eqb app]. f_equal. exact IH. }
    change (@nil item) with (map Ch []). rewrite (map_nth (map Ch)). rewrite visible_chars, Hp.
    + change blankc with ((fun c => (c, Single)) 32). now rewrite map_nth.
    + pose proof (lines_ok g Gg) as Sg. rewrite Forall_forall in Sg. destruct (nth_in_or_default j (lines g) []) as [I|E]; [apply Sg; exact I|rewrite E; constructor].
  - intros x y Hy. rewrite Et'. apply R3. exact Hy.
Qed.
End Screen.

(** A case: three options, at most two ticks, on a 60 x 9 terminal, each keystroke in its own read: the first two options are ticked from below,
    the third cannot be; "b" then leaves banana alone on the screen, and Enter delivers the two ticked. *)
Definition me_case : list stroke := [Chr 106; Chr 32; Chr 107; Chr 32; Fun [27; 91; 70] (named KEnd); Chr 32; Chr 98].
Definition me_model (ks : list stroke) : mui (list Z) := fold_left (me_update se_heap) (delivered (map stroke_bytes ks)) (me_new se_heap has 3 2).
Definition me_screen (ks : list stroke) : term :=
  emu (fun _ => 1) (blank_term 60 9 false) (snd (session (fun _ => false) (mui (list Z)) keymsg (me_update se_heap) (me_view se_heap (zs "Pick:")) (fun _ => None) false (me_new se_heap has 3 2) (map Handle (delivered (map stroke_bytes ks))))).
Definition me_row (ks : list stroke) (y : Z) : list Z := map (fun x => tch (grid (me_screen ks) (Z.of_nat x) y)) (seq 0 25).
Example C363_case : (forall l, has l [] = true) /\ Forall select_stroke me_case /\ arrives me_case (map stroke_bytes me_case) /\
  Forall (fun i => Z.of_nat (length (entered (seen se_options has 2 (firstn i me_case)))) + 8 < 60) (seq 0 9) /\ 3 < 10 ^ 1 /\
  seen se_options has 2 me_case = Sight (zs "b") 0 [0; 1]%nat /\ snd (mhandle_key se_heap (me_model me_case) (named KEnter)) = MConfirm [zs "apple"; zs "cherry"] /\
  map (me_row (firstn 6 me_case)) [0; 2; 3; 4; 6]%Z =
    [zs "Pick: (2 of 3 selected)  "; zs "  [x] apple              "; zs "  [x] cherry             "; zs "> [ ] banana             "; zs "Type to filter...        "] /\
  map (me_row me_case) [0; 2; 3; 4; 6; 7; 8]%Z =
    [zs "Pick: (2 of 3 selected)  "; zs "> [ ] banana             "; zs "                         "; zs "Filter: b                "; zs "  a: all  n: none  Space:"; zs "                         "; zs "                         "].
Proof.
  split; [|split; [|split; [|split; [|split; [|split; [|split; [|split]]]]]]].
  - intros [|x l]; reflexivity.
  - repeat (constructor; [split; [cbn; unfold scalar; try lia; auto 10|cbn; try lia; try exact Logic.I]|]). constructor.
  - apply own_reads_arrive.
  - repeat (constructor; [vm_compute; reflexivity|]). constructor.
  - lia.
  - vm_compute. reflexivity.
  - vm_compute. reflexivity.
  - vm_compute. reflexivity.
  - vm_compute. reflexivity.
Qed.

Print Assumptions C363_ticked_options_are_delivered.
