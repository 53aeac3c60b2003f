(** One inline renderer, several goroutines. *)
From Verif Require Import Prelude Utf8 TermEmu InlineModel InlineSpec TruncProofs TruncItems InlineEmu InlineFrames InlineProps MxModel MxProofs InlineMxModel.

Section P.
Variable zw : Z -> bool.
Notation alone := (alone ish ipos icall unit i_first (i_next zw)).
Notation one_by_one := (one_by_one ish ipos icall unit i_first (i_next zw)).
Fixpoint body (n : nat) (c : icall) (p : ipos) (s : ish) : option ish :=
  match n with O => None | S n => match i_next zw c p s with inr _ => Some s | inl (p', s') => body n c p' s' end end.
Lemma body_on c l x l1 x1 : part _ _ _ _ (i_next zw) c l x l1 x1 -> forall n q, body n c l x = Some q -> exists m, body m c l1 x1 = Some q.
Proof. intros P. induction P as [l x|l x l1 x1 l2 x2 P IH E]; intros n q B; [eauto|]. destruct (IH n q B) as (m & B2). destruct m; [discriminate|]. cbn [body] in B2. rewrite E in B2. eauto. Qed.
Lemma body_alone c s r s' : alone c s r s' -> forall n q, body n c IStart s = Some q -> q = s'.
Proof. intros (l & P & R) n q B. destruct (body_on _ _ _ _ _ P n q B) as (m & B2). destruct m; [discriminate|]. cbn [body] in B2. rewrite R in B2. congruence. Qed.
Lemma alone_is c s r s' : alone c s r s' -> ir s' = fst (do_icall zw (ir s) c) /\ outp s' = outp s ++ snd (do_icall zw (ir s) c).
Proof.
  intros A. assert (Q := body_alone _ _ _ _ A). destruct s as [[w h lv ll n] o]. destruct c as [v| |w' h'].
  - cbn [do_icall]. unfold irender. cbn [ir outp last_view nrend ih iw last_lines]. destruct (list_eqb v lv && (0 <? Z.of_nat n)) eqn:U.
    + specialize (Q 2%nat _ ltac:(cbn [body i_next ir last_view nrend]; rewrite U; cbn [body i_next]; reflexivity)). subst s'. cbn [ir outp fst snd]. now rewrite app_nil_r.
    + specialize (Q 6%nat _ ltac:(cbn [body i_next ir last_view nrend]; rewrite U; cbn [body i_next]; reflexivity)). subst s'. cbn [ir outp fst snd iw ih last_view last_lines nrend]. split; reflexivity.
  - specialize (Q 3%nat _ eq_refl). subst s'. cbn [ir outp fst snd do_icall]. rewrite app_nil_r. split; reflexivity.
  - specialize (Q 5%nat _ eq_refl). subst s'. cbn [ir outp fst snd do_icall]. rewrite app_nil_r. split; reflexivity.
Qed.
Lemma icalls_app a : forall r b, do_icalls zw r (a ++ b) = (fst (do_icalls zw (fst (do_icalls zw r a)) b), snd (do_icalls zw r a) ++ snd (do_icalls zw (fst (do_icalls zw r a)) b)).
Proof.
  induction a as [|c a IH]; intros r b; cbn [app do_icalls]; [cbn [fst snd app]; destruct (do_icalls zw r b); reflexivity|]. destruct (do_icall zw r c) as [r1 o1]. rewrite (IH r1 b). destruct (do_icalls zw r1 a) as [r2 o2]. cbn [fst snd]. now rewrite app_assoc.
Qed.
Lemma run_is s cs s' : one_by_one s cs s' -> ir s' = fst (do_icalls zw (ir s) (map fst cs)) /\ outp s' = outp s ++ snd (do_icalls zw (ir s) (map fst cs)).
Proof.
  intros O. induction O as [x|x cs x1 c r x2 O IH A]; [cbn; rewrite app_nil_r; auto|]. destruct IH as [I1 I2]. apply alone_is in A as [A1 A2]. rewrite map_app, icalls_app. cbn [map fst do_icalls].
  rewrite <- I1 in *. destruct (do_icall zw (ir x1) c) as [r1 o1]. cbn [fst snd] in *. rewrite A2, I2, A1, app_nil_r, app_assoc. split; reflexivity.
Qed.

(** Reading an order of images back as an order of the originals. *)
Lemma lift {A B} (f : A -> B) : forall (order : list (nat * B)) (ps : list (list A)), Forall (fun x => (fst x < length ps)%nat) order ->
  (forall i p, nth_error ps i = Some p -> map snd (filter (fun x => Nat.eqb (fst x) i) order) = map f p) ->
  exists o', map (fun x => (fst x, f (snd x))) o' = order /\ forall i p, nth_error ps i = Some p -> map snd (filter (fun x => Nat.eqb (fst x) i) o') = p.
Proof.
  clear. induction order as [|[i c] order IH]; intros ps Hi Hp.
  - exists []. split; [reflexivity|]. intros i p E. specialize (Hp i p E). destruct p; [reflexivity|discriminate].
  - inversion Hi as [|? ? H1 H2]; subst. cbn [fst] in H1. destruct (nth_error ps i) as [p|] eqn:E; [|apply nth_error_None in E; lia].
    pose proof (Hp i p E) as Q. cbn [filter fst] in Q. rewrite Nat.eqb_refl in Q. cbn [map snd] in Q. destruct p as [|x p]; [discriminate|]. cbn [map] in Q.
    destruct (IH (firstn i ps ++ p :: skipn (S i) ps)) as (o' & O1 & O2).
    + rewrite app_length, firstn_length, Nat.min_l by lia. cbn [length]. rewrite skipn_length. replace (i + S (length ps - S i))%nat with (length ps) by lia. exact H2.
    + intros j q J. destruct (lt_eq_lt_dec j i) as [[L|L]|L].
      * rewrite nth_error_app1 in J by (rewrite firstn_length; lia). rewrite <- (Hp j q); [cbn [filter fst]; replace (Nat.eqb i j) with false by (symmetry; apply Nat.eqb_neq; lia); reflexivity|].
        rewrite <- J. clear - L. revert i ps L. induction j; intros [|i] [|a ps] L; try lia; try reflexivity. cbn. apply IHj. lia.
      * subst j. rewrite nth_error_app2 in J by (rewrite firstn_length; lia). rewrite firstn_length, Nat.min_l, Nat.sub_diag in J by lia. injection J as <-. congruence.
      * rewrite nth_error_app2 in J by (rewrite firstn_length; lia). rewrite firstn_length, Nat.min_l in J by lia. rewrite <- (Hp j q); [cbn [filter fst]; replace (Nat.eqb i j) with false by (symmetry; apply Nat.eqb_neq; lia); reflexivity|].
        rewrite <- J. clear - L. replace (j - i)%nat with (S (j - S i)) by lia. cbn [nth_error]. assert (G : forall k (l : list (list A)) m, nth_error (skipn k l) m = nth_error l (k + m)) by (clear; induction k; intros [|a l] m; cbn; auto; destruct m; reflexivity). rewrite G. f_equal. lia.
    + exists ((i, x) :: o'). split; [cbn [map fst snd]; rewrite O1; congruence|]. intros j q J. cbn [filter fst]. destruct (Nat.eqb_spec i j) as [<-|N].
      * cbn [map snd]. rewrite (O2 i p); [congruence|]. rewrite nth_error_app2 by (rewrite firstn_length; lia). rewrite firstn_length, Nat.min_l, Nat.sub_diag by lia. reflexivity.
      * apply O2. rewrite <- J. destruct (lt_eq_lt_dec j i) as [[L|L]|L]; [|lia|].
        -- rewrite nth_error_app1 by (rewrite firstn_length; lia). clear - L. revert i ps L. induction j; intros [|i] [|a ps] L; try lia; try reflexivity. cbn. apply IHj. lia.
        -- rewrite nth_error_app2 by (rewrite firstn_length; lia). rewrite firstn_length, Nat.min_l by lia. replace (j - i)%nat with (S (j - S i)) by lia. cbn [nth_error]. assert (G : forall k (l : list (list A)) m, nth_error (skipn k l) m = nth_error l (k + m)) by (clear; induction k; intros [|a l] m; cbn; auto; destruct m; reflexivity). rewrite G. f_equal. lia.
Qed.

(* ---------- C333 ---------- *)

(** However the calls of several goroutines interleave, when all have returned there is an order of the calls, keeping each goroutine's
    own, such that the terminal got what the calls made in that order write - whole frames, never mixed - and so, if that order is one
    C11 covers, its screen shows the view rendered last in it. *)
Theorem C333_frames_are_whole : forall cw W H t w h ps sched, let s := i_exec zw sched w h (map (map to_icall) ps) in finished s ->
  exists order : list (nat * scall),
    (forall i p, nth_error ps i = Some p -> map snd (filter (fun x => Nat.eqb (fst x) i) order) = p) /\ (forall i c, In (i, c) order -> (i < length ps)%nat) /\
    outp (sh s) = snd (do_icalls zw (new_inline w h) (map to_icall (map snd order))) /\
    (1 <= W -> tw t = W -> th t = H -> pst t = Ground -> pend t = false -> cx t = 0 -> 0 <= cy t < H -> (forall x y, 0 <= x < W -> cy t <= y < H -> cell2 (grid t x y) = blankc) ->
     adm cw zw W H w h false [] (map snd order) ->
     let frame := displayed (rdw zw) w h [] (map snd order) in let t' := emu cw t (outp (sh s)) in
     exists top, 0 <= top <= cy t /\ cy t' = top + Z.of_nat (pred (length frame)) /\
       (forall j x, 0 <= x < W -> top + Z.of_nat j < H -> cell2 (grid t' x (top + Z.of_nat j)) = nth (Z.to_nat x) (paint cw (visible (nth j frame []))) blankc) /\
       (forall x y, 0 <= y < top -> grid t' x y = grid t x (y + (cy t - top)))).
Proof.
  intros cw W H t w h ps sched s F.
  destruct (lock_serialises _ _ _ _ unit Empty_set i_lock i_first (i_next zw) (fun o _ => match o with end) ltac:(intros c l x l' x' L E; discriminate) (Ish (new_inline w h) []) tt (map (map Do) (map (map to_icall) ps)) sched) as (order & base & O & Dn & Pr & Re & Le & Id).
  change (exec _ _ _ _ _ _) with s in Dn, Pr, Re, Le. rewrite !map_length in Le, Id. apply run_is in O as [_ O]. cbn [outp ir app] in O.
  assert (FI : forall th, In th (ths s) -> st th = Idle /\ todo th = []) by (intros th Hth; unfold finished in F; rewrite Forall_forall in F; auto).
  assert (B : sh s = base) by (apply Re; apply Forall_forall; intros th Hth; unfold holds; now rewrite (proj1 (FI th Hth))).
  destruct (lift to_icall (map (fun x => (fst x, fst (snd x))) order) ps) as (o' & O1 & O2).
  - apply Forall_map. exact Id.
  - intros i p E. destruct (nth_error (ths s) i) as [th|] eqn:Et; [|apply nth_error_None in Et; assert (nth_error ps i <> None) by congruence; apply nth_error_Some in H0; lia].
    specialize (Dn i th Et). specialize (Pr i th (map Do (map to_icall p)) Et ltac:(rewrite !nth_error_map, E; reflexivity)). destruct (FI th (nth_error_In _ _ Et)) as [F1 F2]. unfold returned in Dn. unfold in_progress in Pr. rewrite F1 in Dn, Pr. rewrite F2 in Pr. cbn in Pr. rewrite !app_nil_r in *.
    assert (C1 : forall l : list icall, calls_of icall Empty_set (map Do l) = l) by (induction l as [|y l IHl]; cbn; [reflexivity|]; f_equal; exact IHl). rewrite C1 in Pr. rewrite Pr, <- Dn. unfold of_thread. clear.
    induction order as [|[j [c u]] o IH]; [reflexivity|]. cbn [map filter fst snd]. destruct (Nat.eqb j i); cbn [map fst snd]; [f_equal|]; exact IH.
  - exists o'. split; [exact O2|]. split; [|split].
    + intros i c I. apply (in_map (fun x => (fst x, to_icall (snd x)))) in I. rewrite O1 in I. apply in_map_iff in I as (x & E & I). cbn [fst snd] in E. injection E as <- _. rewrite Forall_forall in Id. exact (Id x I).
    + rewrite B, O. f_equal. f_equal. rewrite map_map. apply (f_equal (map snd)) in O1. rewrite !map_map in O1. cbn [snd] in O1. rewrite map_map. symmetry. exact O1.
    + intros A1 A2 A3 A4 A5 A6 A7 A8 A9. assert (X : outp (sh s) = snd (do_icalls zw (new_inline w h) (map to_icall (map snd o')))).
      { rewrite B, O. f_equal. f_equal. rewrite map_map. apply (f_equal (map snd)) in O1. rewrite !map_map in O1. cbn [snd] in O1. rewrite map_map. symmetry. exact O1. }
      cbv zeta. rewrite X. destruct (C11_region_shows_last_view cw zw W H t w h (map snd o') A1 A2 A3 A4 A5 A6 A7 A8 A9) as (top & T1 & T2 & T3 & T4 & T5 & T6). exists top. auto.
Qed.
Theorem C333_no_deadlock : forall w h ps sched, let s := i_exec zw sched w h ps in ~ finished s -> exists i, step i_lock i_first (i_next zw) (fun (o : Empty_set) (_ : unit) => match o with end) i s <> None.
Proof. intros w h ps sched s N. unfold s, i_exec in *. apply lock_no_deadlock. exact N. Qed.
End P.
Example C333_ex : let ps := [[SRender [txt [97]; txt [98]]; SRender [txt [99]; txt [98]]]; [SRepaint; SResize 5 3]] in
  let s := i_exec zw0 (repeat 0%nat 3 ++ repeat 1%nat 3 ++ repeat 0%nat 5 ++ repeat 1%nat 20 ++ repeat 0%nat 20) 6 0 (map (map to_icall) ps) in
  finished s /\ outp (sh s) = snd (do_icalls zw0 (new_inline 6 0) (map to_icall [SRender [txt [97]; txt [98]]; SRepaint; SResize 5 3; SRender [txt [99]; txt [98]]])).
Proof. vm_compute. split; [repeat (apply Forall_cons; [split; reflexivity|]); apply Forall_nil|reflexivity]. Qed.

Print Assumptions C333_frames_are_whole. Print Assumptions C333_no_deadlock.
