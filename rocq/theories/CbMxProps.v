(** One clipboard, several goroutines. *)
From Verif Require Import Prelude CbModel MxModel MxProofs CbMxModel.
From Coq Require Import Sorting.Permutation Sorting.Sorted.

(* ---------- specification ---------- *)

(** The calls on the history one after another: what each leaves behind and returns. *)
Definition after (s : hst) (c : hcall) : hst :=
  match c with
  | XAdd id t m dt => match add (fst s) id (snd s + dt) t m with Some h => (h, snd s + dt) | None => s end
  | XAll => s
  | XClear => (clear (fst s), snd s)
  | XExpire dt => (fst (remove_expired (fst s) (snd s + dt)), snd s + dt)
  end.
Definition result (s : hst) (c : hcall) : hres :=
  match c with XAll => XEntries (entries (fst s)) | XExpire dt => XCount (snd (remove_expired (fst s) (snd s + dt))) | _ => XDone end.
Fixpoint in_turn (s : hst) (cs : list (hcall * hres)) : Prop :=
  match cs with [] => True | (c, r) :: cs' => r = result s c /\ in_turn (after s c) cs' end.
Definition state_after (s : hst) (cs : list (hcall * hres)) : hst := fold_left after (map fst cs) s.
(** The texts a goroutine gets written, in its order. *)
Definition written (p : list wcall) : list (list Z) := flat_map (fun w => match w with WWrite [] _ _ _ _ => [] | WWrite t _ true _ _ => [t] | _ => [] end) p.
Definition last_n {X} (n : nat) (l : list X) : list X := skipn (length l - n) l.
Definition only_writes (p : list wcall) : Prop := Forall (fun w => match w with WWrite _ _ _ _ dt => 0 <= dt | WHistory => True | _ => False end) p.

(* ---------- one call ---------- *)

Notation alone := (alone hst hpos hcall hres h_first h_next).
Notation one_by_one := (one_by_one hst hpos hcall hres h_first h_next).
Fixpoint body (n : nat) (c : hcall) (p : hpos) (s : hst) : option (hres * hst) :=
  match n with O => None | S n => match h_next c p s with inr r => Some (r, s) | inl (p', s') => body n c p' s' end end.
Lemma body_on c l x l1 x1 : part _ _ _ _ h_next c l x l1 x1 -> forall n q, body n c l x = Some q -> exists m, body m c l1 x1 = Some q.
Proof. intros P. induction P as [l x|l x l1 x1 l2 x2 P IH E]; intros n q B; [eauto|]. destruct (IH n q B) as (m & B2). destruct m; [discriminate|]. cbn [body] in B2. rewrite E in B2. eauto. Qed.
Lemma body_alone c s r s' : alone c s r s' -> forall n q, body n c QStart s = Some q -> q = (r, s').
Proof. intros (l & P & R) n q B. destruct (body_on _ _ _ _ _ P n q B) as (m & B2). destruct m; [discriminate|]. cbn [body] in B2. rewrite R in B2. congruence. Qed.
Lemma alone_is c s r s' : alone c s r s' -> r = result s c /\ s' = after s c.
Proof.
  intros A. assert (Q := body_alone _ _ _ _ A). destruct s as [h k]. destruct c as [id t m dt| | |dt].
  - destruct t as [|b t]; [specialize (Q 2%nat _ eq_refl); injection Q as <- <-; auto|]. specialize (Q 5%nat _ eq_refl). injection Q as <- <-. split; [reflexivity|].
    unfold after, add. cbn [fst snd set_entries entries maxSize maxAge]. destruct ((0 <? maxSize h) && _); reflexivity.
  - specialize (Q 2%nat _ eq_refl). injection Q as <- <-. auto.
  - specialize (Q 2%nat _ eq_refl). injection Q as <- <-. auto.
  - unfold after, result, remove_expired. cbn [fst snd]. destruct (maxAge h <=? 0) eqn:M.
    + specialize (Q 2%nat _ ltac:(cbn [body h_next]; rewrite M; cbn [body h_next]; reflexivity)). injection Q as <- <-. auto.
    + specialize (Q 3%nat _ ltac:(cbn [body h_next]; rewrite M; cbn [body h_next]; reflexivity)). injection Q as <- <-. auto.
Qed.
Lemma in_turn_snoc s a c r : in_turn s (a ++ [(c, r)]) <-> in_turn s a /\ r = result (state_after s a) c.
Proof. revert s. induction a as [|[c1 r1] a IH]; intros s; cbn [app in_turn]; [unfold state_after; cbn; tauto|]. rewrite IH. unfold state_after. cbn [map fst fold_left]. tauto. Qed.
Lemma run_is s cs s' : one_by_one s cs s' -> in_turn s cs /\ s' = state_after s cs.
Proof.
  intros O. induction O as [x|x cs x1 c r x2 O IH A]; [split; [exact Logic.I|reflexivity]|]. destruct IH as [I ->]. destruct (alone_is _ _ _ _ A) as [-> ->].
  split; [apply in_turn_snoc; auto|]. unfold state_after. now rewrite map_app, fold_left_app.
Qed.

(* ---------- C326 ---------- *)

(** Every history call of every goroutine takes effect at one moment: there is an order, keeping each goroutine's own, in which the
    calls one after another give the same results, and the same history whenever no call is under way. *)
Theorem C326_history_serial : forall n age ps sched, let s := h_exec sched n age ps in
  exists order, in_turn (new_history n age, 0) (map snd order) /\
    (forall i th, nth_error (ths s) i = Some th -> of_thread _ _ i order = done th ++ match st th with Leaving c r => [(c, r)] | _ => [] end) /\
    (forall i th p, nth_error (ths s) i = Some th -> nth_error ps i = Some p -> exists rest, calls_of _ _ (flat_map steps_of p) = map fst (done th) ++ rest /\ (finished s -> rest = [])) /\
    (Forall (fun th => st th = Idle) (ths s) -> sh s = state_after (new_history n age, 0) (map snd order)) /\ length (ths s) = length ps /\
    (forall i x, In (i, x) order -> (i < length ps)%nat).
Proof.
  intros n age ps sched s. unfold h_exec in s.
  destruct (lock_serialises _ _ _ _ (list Z) (list Z) h_lock h_first h_next h_out ltac:(intros c l [h k] l' x' L E; destruct c; try discriminate; destruct l; cbn [h_next] in E; congruence) (new_history n age, 0) [] (map (flat_map steps_of) ps) sched) as (order & base & O & Dn & Pr & Re & Le & Id).
  fold s in Dn, Pr, Re, Le. rewrite map_length in Le, Id. destruct (run_is _ _ _ O) as [I B]. exists order. split; [exact I|]. split; [exact Dn|]. split; [|split; [|split; [exact Le|]]].
  - intros i th p E P. specialize (Pr i th (flat_map steps_of p) E ltac:(rewrite nth_error_map, P; reflexivity)).
    eexists. split; [exact Pr|]. intros F. unfold finished in F. rewrite Forall_forall in F. destruct (F th (nth_error_In _ _ E)) as [F1 F2]. unfold in_progress. rewrite F1, F2. reflexivity.
  - intros Q. rewrite <- B. apply Re. eapply Forall_impl; [|exact Q]. unfold holds. intros th ->. reflexivity.
  - intros i x Hi. rewrite Forall_forall in Id. exact (Id _ Hi).
Qed.

(** No deadlock. *)
Theorem C326_no_deadlock : forall n age ps sched, let s := h_exec sched n age ps in ~ finished s -> exists i, step h_lock h_first h_next h_out i s <> None.
Proof. intros n age ps sched s N. unfold s, h_exec in *. apply lock_no_deadlock. exact N. Qed.

Definition texts_of (cs : list (hcall * hres)) : list (list Z) := flat_map (fun x => match fst x with XAdd _ t _ _ => [t] | _ => [] end) cs.
Lemma calls_written p : flat_map (fun c => match c with XAdd _ t _ _ => [t] | _ => [] end) (calls_of _ _ (flat_map steps_of p)) = written p.
Proof.
  unfold calls_of, written. induction p as [|w p IH]; [reflexivity|]. cbn [flat_map]. rewrite !flat_map_app, IH. f_equal. destruct w as [[|b t] m [|] id dt| | |]; reflexivity.
Qed.
Lemma last_n_snoc {X} n (l : list X) x : (0 < n)%nat -> last_n n (l ++ [x]) = if Nat.ltb (length (last_n n l)) n then last_n n l ++ [x] else tl (last_n n l ++ [x]).
Proof.
  intros Hn. unfold last_n. rewrite app_length, skipn_length. cbn [length]. destruct (Nat.ltb_spec (length l - (length l - n)) n) as [L|L].
  - replace (length l - n)%nat with 0%nat by lia. replace (length l + 1 - n)%nat with 0%nat by lia. reflexivity.
  - replace (length l + 1 - n)%nat with (S (length l - n)) by lia. rewrite skipn_app. replace (S (length l - n) - length l)%nat with 0%nat by lia. change (skipn 0 [x]) with [x].
    assert (G : forall k (m : list X), (k < length m)%nat -> skipn (S k) m = tl (skipn k m)) by (induction k; intros [|y m] K; cbn in K |- *; try lia; auto; apply (IHk m); lia).
    rewrite (G (length l - n)%nat l) by lia. assert (NE : skipn (length l - n) l <> []) by (intros Q; apply (f_equal (@length X)) in Q; rewrite skipn_length in Q; cbn in Q; lia). destruct (skipn (length l - n) l); [congruence|reflexivity].
Qed.
Definition kept (n : Z) (l : list (list Z)) : list (list Z) := if 0 <? n then last_n (Z.to_nat n) l else l.
(** Adding only: the entries are the last of the added texts, their times in order. *)
Lemma adds_state n age cs : (forall c, In c (map fst cs) -> match c with XAdd _ t _ dt => t <> [] /\ 0 <= dt | XAll => True | _ => False end) ->
  let s := state_after (new_history n age, 0) cs in
  map econtent (entries (fst s)) = kept n (texts_of cs) /\ maxSize (fst s) = Z.max 0 n /\ StronglySorted (fun a b => etime a <= etime b) (entries (fst s)) /\ Forall (fun e => etime e <= snd s) (entries (fst s)).
Proof.
  induction cs as [|[c r] cs IH] using rev_ind; intros Hc s.
  - unfold s, kept, last_n. cbn. destruct (0 <? n); repeat split; constructor.
  - unfold s, state_after. rewrite map_app, fold_left_app. cbn [map fst fold_left]. fold (state_after (new_history n age, 0) cs). clear s.
    destruct IH as (I1 & I2 & I3 & I4); [intros c' Hc'; apply Hc; rewrite map_app, in_app_iff; auto|]. set (s := state_after (new_history n age, 0) cs) in *.
    specialize (Hc c ltac:(rewrite map_app, in_app_iff; right; left; reflexivity)). unfold texts_of. rewrite flat_map_app. fold (texts_of cs). cbn [flat_map fst app].
    destruct c as [id t m dt| | |]; try contradiction; [|cbn [after]; rewrite app_nil_r; auto]. destruct Hc as [Nt Hd]. destruct t as [|b t]; [congruence|]. unfold after, add. cbn [fst snd].
    set (e := E id (b :: t) m (snd s + dt)). change ([b :: t] ++ []) with [b :: t].
    assert (SS : StronglySorted (fun a b => etime a <= etime b) (entries (fst s) ++ [e]) /\ Forall (fun x => etime x <= snd s + dt) (entries (fst s) ++ [e])).
    { clear - I3 I4 Hd. induction I3 as [|x l I3 IH F]; cbn [app]; [split; repeat constructor; cbn; lia|]. inversion I4 as [|x' l' J1 J2]; subst. destruct (IH J2) as [K1 K2]. split.
      - constructor; auto. apply Forall_app. split; [exact F|]. constructor; [cbn; lia|constructor].
      - constructor; auto. lia. }
    assert (LE : length (entries (fst s)) = length (kept n (texts_of cs))) by (rewrite <- I1, map_length; reflexivity).
    rewrite app_length. cbn [length]. rewrite I2. unfold kept in *. destruct (0 <? n) eqn:Hn.
    + replace (0 <? Z.max 0 n) with true by lia. cbn [andb].
      rewrite last_n_snoc by lia. rewrite <- LE.
      destruct (Nat.ltb_spec (length (entries (fst s))) (Z.to_nat n)) as [L|L].
      * replace (Z.max 0 n <? Z.of_nat (length (entries (fst s)) + 1)) with false by lia. cbn [entries maxSize maxAge]. rewrite map_app, I1. split; [reflexivity|]. split; [reflexivity|]. exact SS.
      * replace (Z.max 0 n <? Z.of_nat (length (entries (fst s)) + 1)) with true by lia. cbn [entries maxSize maxAge]. rewrite <- I1. split; [|split; [reflexivity|]].
        -- change [b :: t] with (map econtent [e]). rewrite <- map_app. destruct (entries (fst s) ++ [e]); reflexivity.
        -- destruct SS as [S1 S2]. destruct (entries (fst s) ++ [e]) as [|y l]; [auto|]. cbn [tl]. inversion S1; inversion S2; auto.
    + replace (0 <? Z.max 0 n) with false by lia. cbn [andb entries maxSize maxAge]. rewrite map_app, I1. split; [reflexivity|]. split; [reflexivity|]. exact SS.
Qed.

(** Goroutines that only write and look: when all have finished, the history holds the texts of some order of all the successful
    writes, each goroutine's in its own order, none lost and none twice - the last n of them if there is a limit - and the times
    rise along it. *)
Theorem C326_every_write_recorded : forall n age ps sched, Forall only_writes ps -> let s := h_exec sched n age ps in finished s ->
  exists ws : list (nat * list Z),
    (forall i p, nth_error ps i = Some p -> map snd (filter (fun x => Nat.eqb (fst x) i) ws) = written p) /\ (forall i t, In (i, t) ws -> (i < length ps)%nat) /\
    map econtent (entries (fst (sh s))) = (if 0 <? n then last_n (Z.to_nat n) (map snd ws) else map snd ws) /\
    StronglySorted (fun a b => etime a <= etime b) (entries (fst (sh s))).
Proof.
  intros n age ps sched W s F. destruct (C326_history_serial n age ps sched) as (order & I & Dn & Pr & Re & Le & Id). fold s in Dn, Pr, Re, Le.
  assert (FI : forall th, In th (ths s) -> st th = Idle /\ todo th = []) by (intros th Hth; unfold finished in F; rewrite Forall_forall in F; auto).
  specialize (Re ltac:(apply Forall_forall; intros th Hth; apply FI; exact Hth)).
  exists (flat_map (fun x => match fst (snd x) with XAdd _ t _ _ => [(fst x, t)] | _ => [] end) order).
  assert (TX : texts_of (map snd order) = map snd (flat_map (fun x => match fst (snd x) with XAdd _ t _ _ => [(fst x, t)] | _ => [] end) order)).
  { clear. unfold texts_of. induction order as [|[i [c r]] o IH]; [reflexivity|]. cbn [map flat_map snd fst]. rewrite map_app, <- IH. destruct c; reflexivity. }
  assert (TH : forall i p, nth_error ps i = Some p -> map fst (of_thread _ _ i order) = calls_of _ _ (flat_map steps_of p)).
  { intros i p P. destruct (nth_error (ths s) i) as [th|] eqn:E; [|apply nth_error_None in E; assert (nth_error ps i <> None) by congruence; apply nth_error_Some in H; lia].
    rewrite (Dn _ _ E). destruct (FI th (nth_error_In _ _ E)) as [F1 F2]. rewrite F1, app_nil_r. destruct (Pr _ _ _ E P) as (rest & Q & R). rewrite (R F), app_nil_r in Q. symmetry. exact Q. }
  split; [|split; [|rewrite <- TX, Re]].
  - intros i p P. rewrite <- calls_written, <- (TH i p P). clear. unfold of_thread. induction order as [|[j [c r]] o IH]; [reflexivity|]. cbn [flat_map filter fst snd]. rewrite filter_app, map_app, IH.
    destruct (Nat.eqb j i) eqn:E; cbn [map flat_map fst snd]; destruct c; cbn [filter fst map snd app flat_map]; rewrite ?E; reflexivity.
  - intros i t Hi. apply in_flat_map in Hi as ([j [c r]] & Hj & Ht). cbn [fst snd] in Ht. destruct c; cbn [In] in Ht; try contradiction. destruct Ht as [Q|[]]. injection Q as <- <-. exact (Id _ _ Hj).
  - destruct (adds_state n age (map snd order)) as (A1 & _ & A3 & _); [|split; [exact A1|exact A3]].
    intros c Hc. apply in_map_iff in Hc as ([c' r] & <- & Hc). apply in_map_iff in Hc as ([i [c2 r2]] & Q & Hc). cbn [snd] in Q. injection Q as -> ->. cbn [fst].
    assert (Lt := Id _ _ Hc). apply nth_error_Some in Lt. destruct (nth_error ps i) as [p|] eqn:P; [|congruence].
    assert (K : In c' (calls_of _ _ (flat_map steps_of p))).
    { rewrite <- (TH i p P). unfold of_thread. rewrite map_map. apply in_map_iff. exists (i, (c', r)). split; [reflexivity|]. apply filter_In. split; [exact Hc|]. cbn [fst]. apply Nat.eqb_refl. }
    rewrite Forall_forall in W. specialize (W p (nth_error_In _ _ P)). unfold only_writes in W. rewrite Forall_forall in W.
    unfold calls_of in K. apply in_flat_map in K as (x & K1 & K2). apply in_flat_map in K1 as (w & K1 & K3). specialize (W w K1).
    destruct w as [[|b t] m [|] id dt| | |]; cbn [steps_of In] in K3; try contradiction.
    + destruct K3 as [<-|[<-|[]]]; cbn [In] in K2; [contradiction|]. destruct K2 as [<-|[]]. split; [discriminate|exact W].
    + destruct K3 as [<-|[]]. destruct K2 as [<-|[]]. exact Logic.I.
Qed.
Example C326_ex : let ps := [[WWrite [97] Plain true 1 5; WWrite [98] Html true 2 5]; [WWrite [] Plain true 3 1; WWrite [99] Plain false 4 1; WWrite [100] Plain true 5 1; WHistory]] in
  let s := h_exec (repeat 0%nat 4 ++ repeat 1%nat 20 ++ repeat 0%nat 4 ++ repeat 1%nat 20 ++ repeat 0%nat 20) 2 0 ps in
  Forall only_writes ps /\ finished s /\ map econtent (entries (fst (sh s))) = [[100]; [98]].
Proof. split; [|vm_compute; split; [repeat (apply Forall_cons; [split; reflexivity|]); apply Forall_nil|reflexivity]]. unfold only_writes. repeat constructor; lia. Qed.

(* ---------- C327: the newest entry is what the clipboard holds (violated) ---------- *)

Theorem C327_newest_entry_refuted : exists sched a b, a <> b /\ let s := h_exec sched 10 0 [[WWrite a Plain true 1 1]; [WWrite b Plain true 2 1]] in
  finished s /\ os s = b /\ map econtent (entries (fst (sh s))) = [b; a].
Proof.
  exists ([0] ++ repeat 1 10 ++ repeat 0 10)%nat, [97], [98]. split; [discriminate|]. vm_compute. split; [repeat (apply Forall_cons; [split; reflexivity|]); apply Forall_nil|auto].
Qed.

Print Assumptions C326_history_serial. Print Assumptions C326_no_deadlock. Print Assumptions C326_every_write_recorded. Print Assumptions C327_newest_entry_refuted.
