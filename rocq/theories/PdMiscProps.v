(** C319-C321: what a program writes, and what it does not: Println, mouse events. *)
From Verif Require Import Prelude InlineModel PdModel CmdModel.
From Verif Require KeysModel KeysMixProps TeaModel TeaSpec TeaProps TeaSourceProps.

(** ** C319 *)
(** The views a program shows: the first one and one after each message; with each message, the size it announces, if any. *)
Fixpoint views {Mdl Msg} (update : Mdl -> Msg -> Mdl) (view : Mdl -> list Z) (m : Mdl) (ms : list Msg) : list (list Z) :=
  view m :: match ms with [] => [] | g :: r => views update view (update m g) r end.

Section Two.
Variables (zw : Z -> bool) (M1 G1 M2 G2 : Type).
Variables (u1 : M1 -> G1 -> M1) (v1 : M1 -> list Z) (s1 : G1 -> option (Z * Z)).
Variables (u2 : M2 -> G2 -> M2) (v2 : M2 -> list Z) (s2 : G2 -> option (Z * Z)).
Variable alt : bool.
Lemma same_events : forall gs1 gs2 p1 p2, rend _ p1 = rend _ p2 -> map s1 gs1 = map s2 gs2 ->
  tl (views u1 v1 (mdl _ p1) gs1) = tl (views u2 v2 (mdl _ p2) gs2) ->
  snd (do_events zw M1 G1 u1 v1 s1 alt p1 (map Handle gs1)) = snd (do_events zw M2 G2 u2 v2 s2 alt p2 (map Handle gs2)).
Proof using.
  induction gs1 as [|g1 gs1 IH]; intros [|g2 gs2] p1 p2 R Sz V; try discriminate; [reflexivity|].
  cbn [map] in Sz. assert (Sg : s1 g1 = s2 g2) by congruence. assert (Ss : map s1 gs1 = map s2 gs2) by congruence.
  cbn [views tl] in V.
  assert (Vh : v1 (u1 (mdl _ p1) g1) = v2 (u2 (mdl _ p2) g2)) by (destruct gs1, gs2; cbn [views] in V; congruence).
  assert (Vt : tl (views u1 v1 (u1 (mdl _ p1) g1) gs1) = tl (views u2 v2 (u2 (mdl _ p2) g2) gs2)) by now rewrite V.
  cbn [map do_events do_event]. unfold handle, render_view. cbn [mdl rend susp]. rewrite Sg, R, Vh. destruct alt.
  - set (r := match s2 g2 with Some _ => _ | None => _ end).
    specialize (IH gs2 (Prog _ (u1 (mdl _ p1) g1) r (susp _ p1)) (Prog _ (u2 (mdl _ p2) g2) r (susp _ p2)) eq_refl Ss Vt).
    destruct (do_events zw M1 G1 u1 v1 s1 true _ _), (do_events zw M2 G2 u2 v2 s2 true _ _). cbn [snd] in *. now rewrite IH.
  - set (r := match s2 g2 with Some _ => _ | None => _ end). destruct (irender zw _ _) as [r' o].
    specialize (IH gs2 (Prog _ (u1 (mdl _ p1) g1) (Some r') (susp _ p1)) (Prog _ (u2 (mdl _ p2) g2) (Some r') (susp _ p2)) eq_refl Ss Vt).
    destruct (do_events zw M1 G1 u1 v1 s1 false _ _), (do_events zw M2 G2 u2 v2 s2 false _ _). cbn [snd] in *. now rewrite IH.
Qed.
(** Two programs, however different their models and messages, that show the same views and are announced the same sizes write the same bytes. *)
Theorem C319_output_is_the_views : forall m1 m2 gs1 gs2, views u1 v1 m1 gs1 = views u2 v2 m2 gs2 -> map s1 gs1 = map s2 gs2 ->
  snd (session zw M1 G1 u1 v1 s1 alt m1 (map Handle gs1)) = snd (session zw M2 G2 u2 v2 s2 alt m2 (map Handle gs2)).
Proof using.
  intros m1 m2 gs1 gs2 V Sz. unfold session, begin, render_view. cbn [mdl rend susp].
  assert (Vh : v1 m1 = v2 m2) by (destruct gs1, gs2; cbn [views] in V; congruence). rewrite Vh.
  assert (Q : forall r, snd (do_events zw M1 G1 u1 v1 s1 alt (Prog _ m1 r false) (map Handle gs1)) = snd (do_events zw M2 G2 u2 v2 s2 alt (Prog _ m2 r false) (map Handle gs2)))
    by (intros r; apply same_events; [reflexivity|exact Sz|cbn [mdl]; now rewrite V]).
  revert Q. destruct alt; intros Q.
  - specialize (Q None). destruct (do_events zw M1 G1 u1 v1 s1 true _ _), (do_events zw M2 G2 u2 v2 s2 true _ _). cbn [snd] in *. now rewrite Q.
  - destruct (irender zw _ _) as [r' o]. specialize (Q (Some r')). destruct (do_events zw M1 G1 u1 v1 s1 false _ _), (do_events zw M2 G2 u2 v2 s2 false _ _). cbn [snd] in *. now rewrite Q.
Qed.
End Two.
(** Cases: a counter of key presses and a list of its digits show the same and write the same. *)
Example C319_ex : views (fun (n : nat) (g : bool) => if g then S n else n) (fun n => repeat 43 n) 0%nat [true; false; true] = views (fun (l : list Z) (g : list Z) => l ++ g) (fun l => l) [] [[43]; []; [43]] /\
  snd (session (fun _ => false) (list Z) (list Z) (fun l g => l ++ g) (fun l => l) (fun _ => None) false [] (map Handle [[43]; []; [43]])) <> [].
Proof. split; [reflexivity|]. vm_compute. discriminate. Qed.

(** ** C320 *)
(** The size a message announces. *)
Definition dsize (d : dyn) : option (Z * Z) := match d with DSize _ w h => Some (w, h) | _ => None end.
Definition infix (a b : list Z) : Prop := exists p q, b = p ++ a ++ q.
(** Violated: the message of Println(t) reaches Update like any other and nothing prints it: a program that does not draw it itself
    writes the same bytes whatever the text. *)
Theorem C320_println_prints_refuted : forall zw Mdl (view : Mdl -> list Z) (update : Mdl -> dyn -> Mdl) alt m t t', (forall m t, update m (DPrint Pub t) = m) ->
  snd (session zw Mdl dyn update view dsize alt m (map Handle [DPrint Pub t])) = snd (session zw Mdl dyn update view dsize alt m (map Handle [DPrint Pub t'])).
Proof. intros zw Mdl view update alt m t t' Hu. apply C319_output_is_the_views; [|reflexivity]. cbn [views]. now rewrite !Hu. Qed.
Theorem C320_println_case_refuted : ~ forall zw Mdl (view : Mdl -> list Z) (update : Mdl -> dyn -> Mdl) m t, infix t (snd (session zw Mdl dyn update view dsize false m (map Handle [DPrint Pub t]))).
Proof.
  intros Q. destruct (Q (fun _ => false) unit (fun _ => [120]) (fun m _ => m) tt [104; 105]) as (p & q & E). vm_compute in E.
  assert (I : In 104 [13; 120; 27; 91; 75; 13]) by (rewrite E; apply in_or_app; right; left; reflexivity). cbn in I. lia.
Qed.

(** ** C321 *)
(** Violated: [mouse n]: message [n] is a mouse event. No code of the program makes one: whatever arrives on the input is decoded to key messages
    (KeysModel.delivered), a report of a click in the first 99 columns and rows to none at all; so unless the application sends one itself, Update never sees one. *)
Theorem C321_mouse_never_delivered_refuted : forall (mouse : Z -> bool) ls s, TeaProps.reach ls s ->
  (forall n, In n (flat_map TeaSpec.leaves (TeaSourceProps.offered ls)) -> mouse n = false) -> forall n, In n (TeaModel.updates s) -> mouse n = false.
Proof. exact TeaSourceProps.C286_never_told. Qed.
Theorem C321_click_no_message_refuted : forall b x y press, 0 <= b < 10 -> 1 <= x <= 99 -> 1 <= y <= 99 -> KeysModel.delivered [KeysMixProps.mouse_report b x y press] = [].
Proof.
  assert (L1 : forall v, 0 <= v < 10 -> length (dec v) = 1%nat).
  { intros v Hv. assert (v = 0 \/ v = 1 \/ v = 2 \/ v = 3 \/ v = 4 \/ v = 5 \/ v = 6 \/ v = 7 \/ v = 8 \/ v = 9) as C by lia. repeat destruct C as [->|C]; try reflexivity. subst. reflexivity. }
  assert (L2 : forall v, 0 <= v <= 99 -> (length (dec v) <= 2)%nat).
  { intros v Hv. replace v with (Z.of_nat (Z.to_nat v)) by lia. assert (K : (Z.to_nat v < 100)%nat) by lia. revert K. generalize (Z.to_nat v). clear.
    assert (C : forallb (fun n => length (dec (Z.of_nat n)) <=? 2)%nat (seq 0 100) = true) by (vm_compute; reflexivity).
    intros n K. rewrite forallb_forall in C. specialize (C n). apply Nat.leb_le, C, in_seq. lia. }
  intros b x y press Hb Hx Hy. apply KeysMixProps.C301_short_mouse_reports; try lia. unfold KeysMixProps.mouse_report. rewrite !app_length. cbn [length]. rewrite L1 by lia. pose proof (L2 x ltac:(lia)). pose proof (L2 y ltac:(lia)). lia.
Qed.
Example C321_ex : exists s, TeaProps.reach [TeaModel.LStart true; TeaModel.LKey (TeaModel.MUser 1)] s.
Proof. eexists. vm_compute. reflexivity. Qed.

Print Assumptions C319_output_is_the_views. Print Assumptions C320_println_prints_refuted. Print Assumptions C320_println_case_refuted. Print Assumptions C321_mouse_never_delivered_refuted.
Print Assumptions C321_click_no_message_refuted.
