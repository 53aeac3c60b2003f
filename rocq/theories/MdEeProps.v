(** C317, C318, C182: a modal shown by a program, on the terminal. *)
From Coq Require Import Sorted.
From Verif Require Import Prelude Utf8 TermEmu InlineModel InlineEmu InlineFrames KeysModel PdModel MdEeModel MdEeProofs.
From Verif Require Import MdModel MdProps.

(** ** Specification *)
Definition printable (c : Z) : Prop := 32 <= c < 127.
(** A modal that is open, does not dim the background, has ASCII texts, and whose rectangle lies on a terminal of W columns and H rows;
    if there are buttons, the content leaves a row free (see C182). *)
Definition fits (W H : Z) (m : modal) : Prop :=
  visible m = true /\ dim m = false /\ 4 <= width m /\ 5 <= height m /\
  (let '(x, y) := position m in 0 <= x /\ x + width m < W /\ 0 <= y /\ y + height m <= H) /\
  Forall printable (title m) /\ Forall (fun c => c = 10 \/ printable c) (content m) /\ Forall (fun b => Forall printable (blabel b)) (btns m) /\
  (btns m = [] \/ forall ls, lines_of (content m) ls -> Z.of_nat (length ls) + (if title m then 5 else 7) <= height m).
(** A terminal of W columns and H rows, its parser at rest, showing characters one cell wide. *)
Definition plain_term (W H : Z) (t : term) : Prop := TermEmu.tw t = W /\ TermEmu.th t = H /\ pst t = Ground /\ 0 <= cy t /\ (forall x y, tkind (grid t x y) = Single).
(** The characters drawn are one cell wide on the terminal. *)
Definition narrow (cw : Z -> Z) : Prop := (forall c, printable c -> cw c = 1) /\ Forall (fun c => cw c = 1) [9472; 9474; 9484; 9488; 9492; 9496; 9500; 9508].
(** The screen shows a row: its characters are at its place (rows and columns count from 1). *)
Definition screen_has (t : term) (r : row) : Prop := forall i c, nth_error (cells r) i = Some c -> tch (grid t (rcol r - 1 + Z.of_nat i) (rrow r - 1)) = c.
Definition not_resize (g : mmsg) : Prop := match g with MResize _ _ => False | _ => True end.
(** A program whose model is the modal: what it writes while it handles the messages, and the modal it ends with. *)
Definition run (zw : Z -> bool) (fe : list Z -> list Z -> bool) (m : modal) (gs : list mmsg) : prog modal * list Z :=
  session zw modal mmsg (fun m g => fst (update fe m g)) view_string msize false m (map Handle gs).

(** ** Proofs *)
Section Md.
Variables (cw : Z -> Z) (zw : Z -> bool) (fe : list Z -> list Z -> bool) (W H : Z).
Hypothesis Hcw : narrow cw.
Notation cell_ok := (fun c => scalar c /\ 32 <= c /\ c <> 127 /\ cw c = 1).

Lemma cell_print c : printable c -> cell_ok c.
Proof. intros P. destruct Hcw as [A _]. unfold scalar. specialize (A c P). unfold printable in P. repeat split; auto; lia. Qed.
Lemma cell_box c : In c [9472; 9474; 9484; 9488; 9492; 9496; 9500; 9508] -> cell_ok c.
Proof. intros I. destruct Hcw as [_ A]. rewrite Forall_forall in A. specialize (A c I). unfold scalar. repeat destruct I as [<-|I]; try (destruct I); repeat split; auto; lia. Qed.
Lemma hline_ok l r w : In l [9484; 9492; 9500] -> In r [9488; 9496; 9508] -> Forall cell_ok (hline l r w).
Proof.
  intros Il Ir. unfold hline. constructor; [apply cell_box; repeat destruct Il as [<-|Il]; try (destruct Il); cbn; tauto|]. apply Forall_app. split.
  - apply Forall_forall. intros c Hc. apply repeat_spec in Hc. subst c. apply cell_box. cbn. tauto.
  - constructor; [|constructor]. apply cell_box. repeat destruct Ir as [<-|Ir]; try (destruct Ir); cbn; tauto.
Qed.
Lemma fitted_ok t n s : Forall printable t -> fitted t n s -> Forall printable s.
Proof.
  assert (D : forall k t, Forall printable t -> Forall printable (firstn k t)) by (intros k u F; apply Forall_forall; intros c I; rewrite Forall_forall in F; apply F; rewrite <- (firstn_skipn k u); apply in_or_app; auto).
  intros F [[_ ->]|[(_ & _ & ->)|(_ & _ & ->)]]; auto; apply Forall_app; split; auto; [apply Forall_forall; intros c I; apply repeat_spec in I; subst c|repeat constructor]; unfold printable; lia.
Qed.
Lemma textline_ok s : Forall printable s -> Forall cell_ok (textline s).
Proof.
  intros F. unfold textline. constructor; [apply cell_box; cbn; tauto|]. constructor; [apply cell_print; unfold printable; lia|]. apply Forall_app. split.
  - eapply Forall_impl; [|exact F]. intros c. apply cell_print.
  - constructor; [apply cell_print; unfold printable; lia|]. constructor; [apply cell_box; cbn; tauto|constructor].
Qed.
Lemma joined_in ls l c : In l ls -> In c l -> In c (joined ls).
Proof.
  induction ls as [|a [|b r] IH]; intros I J; [destruct I|destruct I as [->|[]]; auto|]. change (joined (a :: b :: r)) with (a ++ 10 :: joined (b :: r)). apply in_or_app. destruct I as [->|I]; [auto|]. right. right. auto.
Qed.
Lemma lines_print t ls : lines_of t ls -> Forall (fun c => c = 10 \/ printable c) t -> Forall (Forall printable) ls.
Proof.
  intros (A & B & C) F. subst t. rewrite Forall_forall in *. intros l Il. rewrite Forall_forall. intros c Ic. destruct (F c (joined_in ls l c Il Ic)) as [->|P]; auto. destruct (C l Il Ic).
Qed.
Lemma joined2_ok ls : Forall (Forall printable) ls -> Forall printable (joined2 ls).
Proof.
  induction 1 as [|a ls Ha Hl IH]; [constructor|]. destruct ls as [|b r]; [exact Ha|]. change (joined2 (a :: b :: r)) with (a ++ [32; 32] ++ joined2 (b :: r)). apply Forall_app. split; auto. repeat (constructor; [unfold printable; lia|]). exact IH.
Qed.
Lemma button_ok m s : Forall (fun b => Forall printable (blabel b)) (btns m) -> button_row m s -> Forall printable s.
Proof.
  intros F (ms & -> & L & E). apply joined2_ok. rewrite Forall_forall in *. intros l Il. apply In_nth_error in Il as [i Hi]. assert (Li : (i < length (btns m))%nat) by (rewrite <- L; apply nth_error_Some; congruence).
  destruct (nth_error (btns m) i) as [b|] eqn:Eb; [|apply nth_error_None in Eb; lia]. rewrite (E i b Eb) in Hi. apply some_inj in Hi. subst l. unfold mark. apply nth_error_In in Eb. specialize (F b Eb).
  destruct (_ =? _); repeat (constructor; [unfold printable; lia|]); apply Forall_app; split; auto; repeat (constructor; [unfold printable; lia|]); constructor.
Qed.
Lemma above_col r r' x x' c c' : r < r' -> above (Row r x c) (Row r' x' c').
Proof. intros L. exact L. Qed.
Lemma sorted_app a b : StronglySorted above a -> StronglySorted above b -> (forall x y, In x a -> In y b -> above x y) -> StronglySorted above (a ++ b).
Proof.
  induction a as [|x a IH]; intros A B C; [exact B|]. apply StronglySorted_inv in A as [A A']. cbn [app]. constructor; [apply IH; auto; intros; apply C; auto; right; auto|].
  apply Forall_app. split; auto. apply Forall_forall. intros y I. apply C; [left; auto|auto].
Qed.
Lemma sorted_lines k x (f : list Z -> list Z) ls : forall s, StronglySorted above (map (fun p => Row (k + Z.of_nat (fst p)) x (f (snd p))) (combine (seq s (length ls)) ls)) /\
  Forall (fun r => k + Z.of_nat s <= rrow r < k + Z.of_nat s + Z.of_nat (length ls)) (map (fun p => Row (k + Z.of_nat (fst p)) x (f (snd p))) (combine (seq s (length ls)) ls)).
Proof.
  induction ls as [|l ls IH]; intros s; [split; constructor|]. cbn [length seq combine map fst snd]. destruct (IH (S s)) as [A B]. split.
  - constructor; auto. eapply Forall_impl; [|exact B]. cbn beta. intros r. unfold above. cbn [rrow]. lia.
  - constructor; [cbn [rrow]; lia|]. eapply Forall_impl; [|exact B]. cbn beta. intros r. lia.
Qed.

Lemma texts_ok n fl texts : Forall (Forall printable) fl -> Forall2 (fun l s => fitted l n s) fl texts -> Forall (Forall printable) texts.
Proof. intros Ff L. induction L; [constructor|]. inversion Ff; subst. constructor; [eapply fitted_ok; eauto|auto]. Qed.
Lemma F2_len {A B} (R : A -> B -> Prop) a b : Forall2 R a b -> length a = length b.
Proof using. induction 1; cbn [length]; auto. Qed.
Lemma rows_sorted m : visible m = true -> 4 <= width m -> 5 <= height m -> (btns m = [] \/ forall ls, lines_of (content m) ls -> Z.of_nat (length ls) + (if title m then 5 else 7) <= height m) ->
  exists bg rows, view m = Some (bg, rows) /\ StronglySorted above rows.
Proof.
  intros V Wd Hg Bt. pose proof (C85_box m V Wd) as B.
  destruct (position m) as [x y]. cbv zeta in B. destruct B as (ls & tr & texts & br & rows & L1 & L2 & (s & L3 & L4) & L5 & L6 & L7).
  eexists _, rows. split; [exact L6|].
  pose proof (F2_len _ _ _ L5) as Ln. rewrite firstn_length in Ln. pose proof L1 as L1'. destruct L1' as (Lne & _). assert (Ll : (0 < length ls)%nat) by (destruct ls; [congruence|cbn; lia]).
  destruct (sorted_lines (if title m then y + 2 else y + 4) (x + 1) textline texts 0) as [S1 S2]. change (Z.of_nat 0) with 0 in S2.
  set (body := map _ (combine (seq 0 (length texts)) texts)) in *.
  rewrite Forall_forall in S2. cbn beta in S2. rewrite L7. clear L7 L6 L5 L4 L3 L2.
  assert (Bd : forall r, In r body -> (if title m then y + 2 else y + 4) <= rrow r /\ rrow r < y + height m - 1 /\ (btns m = [] \/ rrow r < y + height m - 3)).
  { intros r I. specialize (S2 r I). split; [lia|]. split; [destruct (title m); lia|]. destruct Bt as [Bt|Bt]; [left; auto|right]. specialize (Bt ls L1). destruct (title m); lia. }
  assert (Hm : btns m = [] \/ (if title m then 5 else 7) < height m) by (destruct Bt as [Bt|Bt]; [left; auto|right]; specialize (Bt ls L1); destruct (title m); lia).
  assert (One : forall r, StronglySorted above [r]) by (intros r; constructor; [apply SSorted_nil|apply Forall_nil]).
  assert (Two : forall r r', rrow r < rrow r' -> StronglySorted above [r; r']) by (intros r r' Q; constructor; [apply One|constructor; [exact Q|apply Forall_nil]]).
  apply sorted_app; [apply One|apply sorted_app; [destruct (title m); [apply SSorted_nil|apply Two; cbn [rrow]; lia]|apply sorted_app; [exact S1|apply sorted_app; [destruct (btns m); [apply SSorted_nil|apply Two; cbn [rrow]; lia]|apply One|]|]|]|]; unfold above.
  - intros a b Ia [<-|[]]. cbn [rrow]. destruct (btns m); [destruct Ia|]. destruct Ia as [<-|[<-|[]]]; cbn [rrow]; lia.
  - intros a b Ia Ib. specialize (Bd a Ia). apply in_app_iff in Ib as [Ib|[<-|[]]]; [|cbn [rrow]; lia]. destruct (btns m); [destruct Ib|]. destruct Bd as (B1 & B2 & [B3|B3]); [discriminate|]. destruct Ib as [<-|[<-|[]]]; cbn [rrow]; lia.
  - intros a b Ia Ib. destruct (title m); [destruct Ia|]. assert (Ra : rrow a = y + 2 \/ rrow a = y + 3) by (destruct Ia as [<-|[<-|[]]]; cbn [rrow]; auto).
    apply in_app_iff in Ib as [Ib|Ib]; [specialize (Bd b Ib); lia|]. apply in_app_iff in Ib as [Ib|[<-|[]]]; [|cbn [rrow]; lia]. destruct Hm as [Hm|Hm]; [rewrite Hm in Ib; destruct Ib|]. destruct (btns m); [destruct Ib|]. destruct Ib as [<-|[<-|[]]]; cbn [rrow]; lia.
  - intros a b [<-|[]] Ib. cbn [rrow]. apply in_app_iff in Ib as [Ib|Ib]; [destruct (title m); [destruct Ib|]; destruct Ib as [<-|[<-|[]]]; cbn [rrow]; lia|].
    apply in_app_iff in Ib as [Ib|Ib]; [specialize (Bd b Ib); destruct (title m); lia|]. apply in_app_iff in Ib as [Ib|[<-|[]]]; [|cbn [rrow]; lia]. destruct Hm as [Hm|Hm]; [rewrite Hm in Ib; destruct Ib|]. destruct (btns m); [destruct Ib|]. destruct Ib as [<-|[<-|[]]]; cbn [rrow]; destruct (title m); lia.
Qed.
Lemma rows_fit m : fits W H m -> exists rows, view m = Some ([], rows) /\ Forall (row_ok cw W H) rows /\ StronglySorted above rows /\ rows <> [].
Proof.
  intros (V & D & Wd & Hg & Ps & Ft & Fc & Fb & Bt). pose proof (C85_box m V Wd) as B. pose proof (C85_rows_inside m Wd Hg) as (rows0 & E0 & In0). unfold in_box in In0.
  destruct (position m) as [x y]. cbn [fst snd] in In0. cbv zeta in B. destruct B as (ls & tr & texts & br & rows & L1 & L2 & (s & L3 & L4) & L5 & L6 & L7). rewrite D in L6.
  assert (rows0 = rows). { unfold view in L6. rewrite V, E0 in L6. cbn [obind] in L6. apply some_inj in L6. congruence. } subst rows0.
  exists rows. split; [exact L6|].
  pose proof (F2_len _ _ _ L5) as Ln. rewrite firstn_length in Ln. pose proof L1 as L1'. destruct L1' as (Lne & _). assert (Ll : (0 < length ls)%nat) by (destruct ls; [congruence|cbn; lia]).
  assert (Tx : Forall (Forall printable) texts).
  { pose proof (lines_print _ _ L1 Fc) as Fl. eapply texts_ok; [|exact L5]. apply Forall_forall; intros l I; rewrite Forall_forall in Fl; apply Fl; rewrite <- (firstn_skipn (Z.to_nat (height m - (if title m then 4 else 6))) ls); apply in_or_app; auto. }
  destruct (sorted_lines (if title m then y + 2 else y + 4) (x + 1) textline texts 0) as [S1 S2]. change (Z.of_nat 0) with 0 in S2.
  set (body := map _ (combine (seq 0 (length texts)) texts)) in *.
  assert (Cells : Forall (fun r => Forall cell_ok (cells r)) rows).
  { rewrite L7. repeat (apply Forall_app; split).
    - constructor; [|constructor]. apply hline_ok; cbn; tauto.
    - destruct (title m) eqn:Et; [constructor|]. constructor; [apply textline_ok; eapply fitted_ok; [|exact L2]; auto|]. constructor; [|constructor]. apply hline_ok; cbn; tauto.
    - unfold body. apply Forall_map. apply Forall_forall. intros [i l] I. cbn [cells snd]. apply in_combine_r in I. apply textline_ok. rewrite Forall_forall in Tx. auto.
    - destruct (btns m) eqn:Eb; [constructor|]. constructor; [apply hline_ok; cbn; tauto|]. constructor; [|constructor]. apply textline_ok. eapply fitted_ok; [|exact L4]. eapply button_ok; [|exact L3]. rewrite Eb; auto.
    - constructor; [|constructor]. apply hline_ok; cbn; tauto. }
  split; [|split].
  - rewrite Forall_forall in *. intros r I. specialize (In0 r I). specialize (Cells r I). cbn beta in In0. unfold row_ok. destruct In0 as (A & B & C). repeat split; try lia. exact Cells.
  - destruct (rows_sorted m V Wd Hg Bt) as (bg & rows1 & Ev & Q). rewrite L6 in Ev. apply some_inj in Ev. assert (rows = rows1) by congruence. now subst rows1.
  - rewrite L7. discriminate.
Qed.

Lemma all_some_length {A} (l : list (option A)) : forall r, all_some l = Some r -> length r = length l.
Proof using.
  induction l as [|[a|] l IH]; intros r E; cbn [all_some obind] in E; try discriminate; [apply some_inj in E; subst; reflexivity|]. destruct (all_some l) as [q|]; [|discriminate]. cbn [obind] in E. apply some_inj in E. subst r. cbn [length]. f_equal. auto.
Qed.
Lemma rows_length m f rows rows' : render_box m = Some rows -> render_box (set_foc m f) = Some rows' -> length rows' = length rows.
Proof using.
  unfold render_box. change (position (set_foc m f)) with (position m). destruct (position m) as [x y]. cbv zeta. intros E E'. apply all_some_length in E, E'. rewrite E, E'.
  rewrite !app_length, !map_length. change (nbtn (set_foc m f)) with (nbtn m). change (title (set_foc m f)) with (title m). change (content (set_foc m f)) with (content m). change (height (set_foc m f)) with (height m). destruct (title m), (nbtn m =? 0); reflexivity.
Qed.
Lemma update_foc m g : not_resize g -> visible (fst (update fe m g)) = true -> exists f, fst (update fe m g) = set_foc m f.
Proof using.
  intros N. assert (Id : m = set_foc m (foc m)) by (destruct m; reflexivity). unfold update. destruct (visible m) eqn:V; cbn [negb]; [|exists (foc m); exact Id].
  destruct g as [k| |]; [|destruct N|exists (foc m); exact Id]. unfold handle_key. destruct (matches k (kclose (kb m))); [intros E; cbn in E; discriminate|]. intros _.
  destruct (matches k (knext (kb m))); [cbn [fst]; unfold focus_next; destruct (_ =? _); eauto|]. destruct (matches k (kprev (kb m))); [cbn [fst]; unfold focus_prev; destruct (_ =? 0); eauto|].
  destruct (if matches k (kact (kb m)) then focused_button m else None); [exists (foc m); exact Id|]. destruct (find _ _); exists (foc m); exact Id.
Qed.
Lemma hidden_stays m g : not_resize g -> visible m = false -> visible (fst (update fe m g)) = false.
Proof using. intros N V. unfold update. rewrite V. cbn. exact V. Qed.
Lemma view_str m rows : view m = Some ([], rows) -> view_string m = drawn rows.
Proof using. intros E. unfold view_string. rewrite E. reflexivity. Qed.

Notation upd := (fun m g => fst (update fe m g)).
Lemma hidden_events gs : forall p, visible (mdl _ p) = false -> visible (mdl _ (fst (do_events zw modal mmsg upd view_string msize false p (map Handle gs)))) = false.
Proof using.
  induction gs as [|g gs IH]; intros p V; [exact V|]. cbn [map do_events do_event handle]. unfold handle, render_view. cbn [mdl rend susp].
  set (rd := match msize g with Some _ => _ | None => _ end). destruct (irender zw _ _) as [r' o]. specialize (IH (Prog _ (upd (mdl _ p) g) (Some r') (susp _ p))).
  destruct (do_events zw modal mmsg upd view_string msize false (Prog _ (upd (mdl _ p) g) (Some r') (susp _ p)) (map Handle gs)) as [p2 o2]. cbn [fst] in *. apply IH. cbn [mdl]. unfold update. rewrite V. cbn. exact V.
Qed.
Lemma events_ok gs : forall p r t rows, Forall not_resize gs -> fits W H (mdl _ p) -> view (mdl _ p) = Some ([], rows) -> rend _ p = Some r -> shown cw W H r t rows ->
  let '(p', o) := do_events zw modal mmsg upd view_string msize false p (map Handle gs) in
  visible (mdl _ p') = true -> exists rows', fits W H (mdl _ p') /\ view (mdl _ p') = Some ([], rows') /\ Forall (on_screen (emu cw t o)) rows'.
Proof.
  induction gs as [|g gs IH]; intros p r t rows N F V R Sh.
  - cbn [map do_events]. intros _. exists rows. rewrite emu_nil. destruct Sh. auto.
  - inversion N as [|? ? N1 N2]; subst. cbn [map do_events do_event]. unfold handle, render_view. cbn [mdl rend susp]. rewrite R.
    replace (match msize g with Some (w, h) => Some (iresize r w h) | None => Some r end) with (Some r) by (destruct g; [reflexivity|destruct N1|reflexivity]).
    destruct (visible (upd (mdl _ p) g)) eqn:Vu.
    + destruct (update_foc _ _ N1 Vu) as [f Ef]. rewrite Ef.
      assert (F' : fits W H (set_foc (mdl _ p) f)) by exact F. destruct (rows_fit _ F') as (rows' & V' & Ok' & St' & Ne').
      assert (Len : length rows' = length rows).
      { apply (rows_length (mdl _ p) f).
        - unfold view in V. destruct F as (Vi & _). rewrite Vi in V. destruct (render_box (mdl _ p)); [|discriminate]. cbn [obind] in V. apply some_inj in V. congruence.
        - unfold view in V'. destruct F' as (Vi & _). rewrite Vi in V'. destruct (render_box (set_foc (mdl _ p) f)); [|discriminate]. cbn [obind] in V'. apply some_inj in V'. congruence. }
      rewrite (view_str _ _ V'). pose proof (next_frame cw W H zw r t rows rows') as Nx. destruct (irender zw r (drawn rows')) as [r' o]. cbn [fst snd] in Nx.
      specialize (IH (Prog _ (set_foc (mdl _ p) f) (Some r') (susp _ p)) r').
      destruct (do_events zw modal mmsg upd view_string msize false (Prog _ (set_foc (mdl _ p) f) (Some r') (susp _ p)) (map Handle gs)) as [p2 o2]. intros V2.
      destruct (Nx o2 Sh Ok' St' Len) as (t' & Et & Sh'). rewrite Et. exact (IH t' rows' N2 F' V' eq_refl Sh' V2).
    + destruct (irender zw r _) as [r' o]. pose proof (hidden_events gs (Prog _ (upd (mdl _ p) g) (Some r') (susp _ p)) Vu) as Hd.
      destruct (do_events zw modal mmsg upd view_string msize false (Prog _ (upd (mdl _ p) g) (Some r') (susp _ p)) (map Handle gs)) as [p2 o2]. cbn [fst] in Hd. intros V2. congruence.
Qed.
End Md.

(* ---------- C317 ---------- *)
(** While the modal is open, whatever messages (not resizes) it has handled, the terminal shows every row of its box in its place. *)
Theorem C317_open_modal_on_screen : forall cw zw fe W H t m gs, narrow cw -> plain_term W H t -> fits W H m -> Forall not_resize gs ->
  let '(p, o) := run zw fe m gs in visible (mdl _ p) = true ->
  exists rows, view (mdl _ p) = Some ([], rows) /\ Forall (screen_has (emu cw t o)) rows.
Proof.
  intros cw zw fe W H t m gs Hc (T1 & T2 & T3 & T4 & T5) F N. unfold run, session, begin, render_view. cbn [mdl rend susp].
  destruct (rows_fit cw zw fe W H Hc m F) as (rows & V & Ok & St & Ne). rewrite (view_str m rows V).
  pose proof (first_frame cw W H zw t rows) as Fr. destruct (irender zw (new_inline 0 0) (drawn rows)) as [r o0]. cbn [fst snd] in Fr.
  pose proof (events_ok cw zw fe W H Hc gs (Prog _ m (Some r) false) r) as Ev.
  destruct (do_events zw modal mmsg (fun m g => fst (update fe m g)) view_string msize false (Prog _ m (Some r) false) (map Handle gs)) as [p o1]. intros Vp.
  destruct (Fr o1 (conj T1 (conj T2 (conj T3 T5))) T4 Ne Ok St) as (t' & Et & Sh). rewrite Et. destruct (Ev t' rows N F V eq_refl Sh Vp) as (rows' & _ & V' & On). exists rows'. split; [exact V'|exact On].
Qed.
(** An OK/No modal of 20 by 9 on a 24 x 12 terminal; Tab moves the focus. *)
Definition two_btns : list button := [Button [79; 75] [111] [111]; Button [78; 111] [110] [110]].
Definition small_modal (bs : list button) : modal := msteps (fun _ _ => false) [OButtons bs; OSize 20 9; OShow; OMsg (MResize 24 12)] (new_modal [84] [97; 98]).
Example C317_ex_fits : fits 24 12 (small_modal two_btns) /\ narrow (fun _ => 1) /\ plain_term 24 12 (blank_term 24 12 false).
Proof.
  split; [|split].
  - unfold fits. cbn. repeat split; try lia; try (repeat constructor; unfold printable; lia).
    right. intros ls (A & B & C). destruct ls as [|a [|b r]]; [congruence|cbn; lia|]. exfalso. change (joined (a :: b :: r)) with (a ++ 10 :: joined (b :: r)) in B. assert (I : In 10 [97; 98]) by (rewrite <- B; apply in_or_app; right; left; reflexivity). cbn in I. lia.
  - split; [auto|repeat constructor].
  - repeat split; cbn; lia.
Qed.
Definition key_tab : mmsg := MKey (plain KTab).
Definition key_esc : mmsg := MKey (plain KEsc).
Definition text_at (t : term) (y x n : Z) : list Z := map (fun i => tch (grid t (x + Z.of_nat i) y)) (seq 0 (Z.to_nat n)).
Example C317_ex_screen : let o := snd (run (fun _ => false) (fun _ _ => false) (small_modal two_btns) [key_tab]) in
  text_at (emu (fun _ => 1) (blank_term 24 12 false) o) 7 2 20 = textline ([91; 32; 79; 75; 32; 93; 32; 32; 60; 32; 78; 111; 32; 62; 32; 32]) /\ visible (mdl _ (fst (run (fun _ => false) (fun _ _ => false) (small_modal two_btns) [key_tab]))) = true.
Proof. vm_compute. auto. Qed.

(* ---------- C318 ---------- *)
(** Violated: once the modal is closed, its box is still on the screen in part. A modal of 20 by 9 with one line of content and no buttons: after Esc the top border is
    still there, although View is empty. *)
Theorem C318_closed_modal_gone_refuted : exists cw zw fe W H m gs, narrow cw /\ plain_term W H (blank_term W H false) /\ fits W H m /\ Forall not_resize gs /\
  let '(p, o) := run zw fe m gs in view (mdl _ p) = Some ([], []) /\ exists x y, 0 <= x < W /\ 0 <= y < H /\ tch (grid (emu cw (blank_term W H false) o) x y) <> 32.
Proof.
  exists (fun _ => 1), (fun _ => false), (fun _ _ => false), 24, 12, (small_modal []), [key_esc].
  split; [split; [auto|repeat constructor]|]. split; [repeat split; cbn; lia|]. split.
  - unfold fits. cbn. repeat split; try lia; try (repeat constructor; unfold printable; lia); auto.
  - split; [repeat constructor|]. destruct (run _ _ (small_modal []) [key_esc]) as [p o] eqn:E. vm_compute in E. injection E as <- <-. split; [reflexivity|]. exists 4, 1. split; [lia|]. split; [lia|]. vm_compute. discriminate.
Qed.

(* ---------- C182 ---------- *)
(** Without buttons, or when the content leaves a row free, every row is below the ones before it. *)
Theorem C182_rows_apart_partial : forall m, visible m = true -> 4 <= width m -> 5 <= height m ->
  (btns m = [] \/ forall ls, lines_of (content m) ls -> Z.of_nat (length ls) + (if title m then 5 else 7) <= height m) ->
  exists bg rows, view m = Some (bg, rows) /\ StronglySorted (fun a b => rrow a < rrow b) rows.
Proof. intros m V Wd Hg Bt. assert (Nw : narrow (fun _ => 1)) by (split; [auto|repeat constructor]). eapply rows_sorted; eauto; exact (fun _ => false) || exact (fun _ _ => false) || exact 0. Qed.

Print Assumptions C317_open_modal_on_screen. Print Assumptions C318_closed_modal_gone_refuted. Print Assumptions C182_rows_apart_partial.
