(** Clipboard: history, OSC 52, providers. *)
From Coq Require Import Permutation Sorted.
From Verif Require Import Prelude Text CbModel.

(* ---------- C53 ---------- *)
(** Operations on a history with the clock at the call. *)
Inductive hop := HAdd (id now : Z) (c : list Z) (m : mime) | HSetMaxSize (n : Z) | HSetMaxAge (a : Z) | HExpire (now : Z) | HClear.
Definition hstep (h : history) (o : hop) : history :=
  match o with
  | HAdd id t c m => match add h id t c m with Some h' => h' | None => h end
  | HSetMaxSize n => set_max_size h n | HSetMaxAge a => set_max_age h a | HExpire t => fst (remove_expired h t) | HClear => clear h
  end.
Definition hrun (n a : Z) (os : list hop) : history := fold_left hstep os (new_history n a).
(** What was recorded since the last Clear, in order, and the limits in force: read off the operations alone. *)
Definition logged (l : list entry) (o : hop) : list entry := match o with HAdd id t c m => if list_eqb c [] then l else l ++ [E id c m t] | HClear => [] | _ => l end.
Definition log (os : list hop) : list entry := fold_left logged os [].
Definition limit (n : Z) (os : list hop) : Z := fold_left (fun v o => match o with HSetMaxSize k => Z.max 0 k | _ => v end) os (Z.max 0 n).
Definition age (a : Z) (os : list hop) : Z := fold_left (fun v o => match o with HSetMaxAge k => Z.max 0 k | _ => v end) os (Z.max 0 a).
(** Why the i-th recorded entry may be gone: at some point since it was recorded at least as many newer ones as the limit allowed had been
    recorded, or it was older than the age limit at an expiry call. *)
Definition gone (n a : Z) (os : list hop) (i : nat) (e : entry) : Prop :=
  exists o1 o2, os = o1 ++ o2 /\ ~ In HClear o2 /\ nth_error (log o1) i = Some e /\
    ((0 < limit n o1 /\ limit n o1 <= Z.of_nat (length (log o1)) - Z.of_nat i - 1) \/
     (exists o1' t, o1 = o1' ++ [HExpire t] /\ 0 < age a o1 /\ age a o1 < t - etime e)).
Lemma gone_snoc n a os o i e : o <> HClear -> gone n a os i e -> gone n a (os ++ [o]) i e.
Proof. intros N (o1 & o2 & -> & NC & R). exists o1, (o2 ++ [o]). rewrite app_assoc. split; [reflexivity|]. split; [|exact R]. intros I. apply in_app_or in I as [I|[I|[]]]; auto. Qed.
Lemma log_snoc os o : log (os ++ [o]) = logged (log os) o. Proof. unfold log. rewrite fold_left_app. reflexivity. Qed.
Lemma limit_snoc n os o : limit n (os ++ [o]) = match o with HSetMaxSize k => Z.max 0 k | _ => limit n os end. Proof. unfold limit. rewrite fold_left_app. reflexivity. Qed.
Lemma age_snoc n os o : age n (os ++ [o]) = match o with HSetMaxAge k => Z.max 0 k | _ => age n os end. Proof. unfold age. rewrite fold_left_app. reflexivity. Qed.
Lemma hrun_snoc n a os o : hrun n a (os ++ [o]) = hstep (hrun n a os) o. Proof. unfold hrun. rewrite fold_left_app. reflexivity. Qed.
Definition in_time (l : list entry) : Prop := StronglySorted (fun x y => etime x <= etime y) l.
Lemma sorted_app (a b : list entry) : in_time (a ++ b) -> in_time a /\ in_time b.
Proof.
  unfold in_time. induction a as [|x a IH]; intros S; [split; [constructor|exact S]|]. cbn [app] in S. inversion_clear S as [|? ? S1 S2]. destruct (IH S1) as [I1 I2]. split; auto. constructor; auto. apply Forall_app in S2. tauto.
Qed.
Lemma expire_suffix ag t l : 0 < ag -> in_time l -> exists d, l = d ++ filter (fun e => negb (expired ag t e)) l /\ Forall (fun e => ag < t - etime e) d.
Proof.
  intros A. induction 1 as [|x l S IH F]; [exists []; split; [reflexivity|constructor]|]. cbn [filter]. unfold expired at 1. replace (ag <=? 0) with false by lia. destruct (ag <? t - etime x) eqn:E; cbn [negb].
  - destruct IH as (d & D1 & D2). exists (x :: d). split; [cbn [app]; f_equal; exact D1|constructor; auto; lia].
  - exists []. split; [|constructor]. cbn [app]. f_equal. clear IH S. induction F as [|y l H F IH]; [reflexivity|]. cbn [filter]. unfold expired at 1. replace (ag <=? 0) with false by lia. replace (ag <? t - etime y) with false by lia. cbn [negb]. f_equal. exact IH.
Qed.
(** The history is always the end of the recorded sequence, at most [limit] long, and whatever is missing had to go. *)
Theorem C53_newest_kept : forall n a os, (forall os', (exists r, os = os' ++ r) -> in_time (log os')) ->
  let h := hrun n a os in
  (0 < limit n os -> Z.of_nat (length (entries h)) <= limit n os) /\
  exists dropped, log os = dropped ++ entries h /\ forall i e, nth_error dropped i = Some e -> gone n a os i e.
Proof.
  intros n a os ST. cbv zeta.
  enough (maxSize (hrun n a os) = limit n os /\ maxAge (hrun n a os) = age a os /\ (0 < limit n os -> Z.of_nat (length (entries (hrun n a os))) <= limit n os) /\
     exists dropped, log os = dropped ++ entries (hrun n a os) /\ forall i e, nth_error dropped i = Some e -> gone n a os i e) by tauto.
  induction os as [|o os IH] using rev_ind; [repeat split; [cbn; lia|]; exists []; split; [reflexivity|intros [|i] e H; discriminate]|].
  destruct IH as (M1 & M2 & B & d & D1 & D2); [intros os' (r & ->); apply ST; exists (r ++ [o]); rewrite app_assoc; reflexivity|].
  pose proof (ST (os ++ [o]) ltac:(exists []; rewrite app_nil_r; reflexivity)) as SN. pose proof (ST os ltac:(exists [o]; reflexivity)) as SO. clear ST.
  rewrite hrun_snoc, limit_snoc, age_snoc, log_snoc. set (h := hrun n a os) in *. destruct o as [id t c m|k|k|t|]; cbn [hstep logged].
  - destruct c as [|c0 c]; [cbn [add list_eqb]; repeat split; auto; exists d; split; auto; intros; apply gone_snoc; auto; discriminate|].
    cbn [add list_eqb]. set (e := E id (c0 :: c) m t). cbn [maxSize maxAge entries]. split; [auto|]. split; [auto|].
    assert (LL : length (log (os ++ [HAdd id t (c0 :: c) m])) = S (length d + length (entries h))) by (rewrite log_snoc; cbn [logged list_eqb]; rewrite D1, !app_length; cbn [length]; lia).
    rewrite app_length. cbn [length]. destruct ((0 <? maxSize h) && (maxSize h <? Z.of_nat (length (entries h) + 1))) eqn:OV.
    + destruct (entries h) as [|e0 es] eqn:EH; [cbn [length] in OV; lia|]. cbn [app tl length]. rewrite app_length. cbn [length]. split; [intros Q; specialize (B Q); cbn [length] in B; lia|].
      exists (d ++ [e0]). split; [rewrite D1, <- !app_assoc; reflexivity|]. intros i x X. destruct (Nat.ltb_spec i (length d)) as [L|L].
      * rewrite nth_error_app1 in X by auto. apply gone_snoc; [discriminate|auto].
      * rewrite nth_error_app2 in X by auto. destruct (i - length d)%nat as [|j] eqn:EJ; [|destruct j; discriminate]. cbn [nth_error] in X. apply some_inj in X. subst x.
        exists (os ++ [HAdd id t (c0 :: c) m]), []. rewrite app_nil_r. split; [reflexivity|]. split; [intros []|]. split.
        { rewrite log_snoc. cbn [logged list_eqb]. rewrite D1, <- app_assoc. rewrite nth_error_app2 by lia. replace (i - length d)%nat with 0%nat by lia. reflexivity. }
        left. rewrite limit_snoc, LL. cbn [length] in *. lia.
    + split; [intros Q; specialize (B Q); rewrite app_length; cbn [length]; lia|]. exists d. split; [rewrite D1, <- app_assoc; reflexivity|]. intros i x X. apply gone_snoc; [discriminate|auto].
  - unfold set_max_size. cbn [maxSize maxAge entries]. split; [reflexivity|]. split; [auto|]. destruct ((0 <? Z.max 0 k) && (Z.max 0 k <? Z.of_nat (length (entries h)))) eqn:OV.
    + set (z := (length (entries h) - Z.to_nat (Z.max 0 k))%nat). split; [intros _; rewrite skipn_length; unfold z; lia|]. exists (d ++ firstn z (entries h)). split; [rewrite <- app_assoc, firstn_skipn; auto|].
      intros i x X. destruct (Nat.ltb_spec i (length d)) as [L|L]; [rewrite nth_error_app1 in X by auto; apply gone_snoc; [discriminate|auto]|].
      rewrite nth_error_app2 in X by auto. rewrite nth_error_firstn in X. destruct (i - length d <? z)%nat eqn:EZ; [|discriminate]. apply Nat.ltb_lt in EZ.
      exists (os ++ [HSetMaxSize k]), []. rewrite app_nil_r. split; [reflexivity|]. split; [intros []|]. rewrite log_snoc. cbn [logged]. split; [rewrite D1, nth_error_app2 by auto; exact X|].
      left. rewrite limit_snoc, D1, app_length. unfold z in EZ. lia.
    + split; [lia|]. exists d. split; auto. intros i x X. apply gone_snoc; [discriminate|auto].
  - unfold set_max_age. cbn [maxSize maxAge entries]. repeat split; auto. exists d. split; auto. intros i x X. apply gone_snoc; [discriminate|auto].
  - unfold remove_expired. destruct (maxAge h <=? 0) eqn:MA; cbn [fst maxSize maxAge entries]; [repeat split; auto; exists d; split; auto; intros i x X; apply gone_snoc; [discriminate|auto]|].
    split; [auto|]. split; [auto|]. rewrite D1 in SO. apply sorted_app in SO as [_ SO]. destruct (expire_suffix (maxAge h) t (entries h) ltac:(lia) SO) as (d2 & E1 & E2). set (f := filter _ (entries h)) in *. split.
    + intros Q. specialize (B Q). apply (f_equal (@length entry)) in E1. rewrite app_length in E1. lia.
    + exists (d ++ d2). split; [rewrite D1, E1, app_assoc; reflexivity|]. intros i x X. destruct (Nat.ltb_spec i (length d)) as [L|L]; [rewrite nth_error_app1 in X by auto; apply gone_snoc; [discriminate|auto]|].
      rewrite nth_error_app2 in X by auto. exists (os ++ [HExpire t]), []. rewrite app_nil_r. split; [reflexivity|]. split; [intros []|]. rewrite log_snoc. cbn [logged]. split.
      { rewrite D1, nth_error_app2 by auto. rewrite E1. rewrite nth_error_app1; [exact X|]. apply nth_error_Some. congruence. }
      right. exists os, t. split; [reflexivity|]. rewrite age_snoc, <- M2. rewrite Forall_forall in E2. specialize (E2 x ltac:(eapply nth_error_In; eauto)). lia.
  - unfold clear. cbn [maxSize maxAge entries length]. repeat split; auto; [lia|]. exists []. split; [reflexivity|]. intros [|i] x X; discriminate.
Qed.
(** A rejected Add changes nothing; an expiry call removes exactly the expired entries, keeps the others in order and counts them. *)
Theorem C53_steps : forall h id t c m, (c = [] -> add h id t c m = None) /\
  (0 < maxAge h -> let '(h', k) := remove_expired h t in
     (forall e, In e (entries h') <-> In e (entries h) /\ ~ (maxAge h < t - etime e)) /\ entries h' = filter (fun e => t - etime e <=? maxAge h) (entries h) /\
     k = Z.of_nat (length (entries h)) - Z.of_nat (length (entries h')) /\ maxSize h' = maxSize h /\ maxAge h' = maxAge h).
Proof.
  intros h id t c m. split; [intros ->; reflexivity|]. intros A. unfold remove_expired. replace (maxAge h <=? 0) with false by lia. cbn [entries maxSize maxAge].
  assert (EX : forall e, negb (expired (maxAge h) t e) = (t - etime e <=? maxAge h)) by (intros e; unfold expired; replace (maxAge h <=? 0) with false by lia; destruct (maxAge h <? t - etime e) eqn:?, (t - etime e <=? maxAge h) eqn:?; auto; lia).
  assert (FE : filter (fun e => negb (expired (maxAge h) t e)) (entries h) = filter (fun e => t - etime e <=? maxAge h) (entries h)) by (apply filter_ext; exact EX).
  split; [|split; [exact FE|split; [|auto]]].
  - intros e. rewrite FE, filter_In. rewrite Z.leb_le. intuition lia.
  - generalize (entries h) as l. induction l as [|x l IH]; [reflexivity|]. cbn [filter]. destruct (expired (maxAge h) t x); cbn [negb length]; lia.
Qed.
Example C53_met : let os := [HAdd 1 10 [65] Plain; HAdd 2 20 [] Plain; HAdd 3 30 [66] Html; HAdd 4 40 [67] Rtf; HExpire 36; HSetMaxSize 1] in
  (forall os', (exists r, os = os' ++ r) -> in_time (log os')) /\ map eid (entries (hrun 2 5 os)) = [4] /\ map eid (log os) = [1; 3; 4] /\ map eid (entries (hrun 2 5 (firstn 4 os))) = [3; 4].
Proof.
  cbv zeta. split; [|repeat split]. intros os' (r & EQ). assert (L : log os' = firstn (length (log os')) [E 1 [65] Plain 10; E 3 [66] Html 30; E 4 [67] Rtf 40]).
  { destruct os' as [|o1 os']; [reflexivity|]. injection EQ as <- EQ. destruct os' as [|o2 os']; [reflexivity|]. injection EQ as <- EQ. destruct os' as [|o3 os']; [reflexivity|]. injection EQ as <- EQ. destruct os' as [|o4 os']; [reflexivity|]. injection EQ as <- EQ.
    destruct os' as [|o5 os']; [reflexivity|]. injection EQ as <- EQ. destruct os' as [|o6 os']; [reflexivity|]. injection EQ as <- EQ. destruct os'; [reflexivity|discriminate]. }
  rewrite L. unfold in_time. clear. destruct (length (log os')) as [|[|[|[|k]]]]; cbn [firstn]; repeat first [apply SSorted_nil | apply SSorted_cons | apply Forall_cons | apply Forall_nil]; cbn [etime]; lia.
Qed.

(* ---------- C54 ---------- *)
(** Decoding base64 as RFC 4648 defines it: four characters carry 24 bits. *)
Definition b64val (c : Z) : option Z :=
  if (65 <=? c) && (c <=? 90) then Some (c - 65) else if (97 <=? c) && (c <=? 122) then Some (c - 71) else if (48 <=? c) && (c <=? 57) then Some (c + 4) else if c =? 43 then Some 62 else if c =? 47 then Some 63 else None.
Definition bytes3 (v : Z) : list Z := [v / 65536; v / 256 mod 256; v mod 256].
Fixpoint unbase64 (s : list Z) : option (list Z) :=
  match s with
  | [] => Some []
  | a :: b :: c :: d :: r =>
    match b64val a, b64val b with
    | Some x, Some y =>
      if (c =? 61) && (d =? 61) then match r with [] => Some (firstn 1 (bytes3 (x * 262144 + y * 4096))) | _ => None end
      else match b64val c with
           | None => None
           | Some z => if d =? 61 then match r with [] => Some (firstn 2 (bytes3 (x * 262144 + y * 4096 + z * 64))) | _ => None end
                       else match b64val d, unbase64 r with Some w, Some t => Some (bytes3 (x * 262144 + y * 4096 + z * 64 + w) ++ t) | _, _ => None end
           end
    | _, _ => None
    end
  | _ => None
  end.
(** How a terminal finds the payload of an operating system command: everything up to ESC \ or BEL. *)
Fixpoint osc_payload (s : list Z) : option (list Z * list Z) :=
  match s with
  | [] => None
  | 7 :: r => Some ([], r)
  | 27 :: 92 :: r => Some ([], r)
  | 27 :: _ => None
  | c :: r => match osc_payload r with Some (p, rest) => Some (c :: p, rest) | None => None end
  end.
Definition osc (s : list Z) : option (list Z * list Z) := match s with 27 :: 93 :: r => osc_payload r | _ => None end.
Lemma b64_val v : 0 <= v < 64 -> b64val (b64char v) = Some v /\ b64char v <> 61 /\ 43 <= b64char v <= 122.
Proof.
  intros H. unfold b64char. destruct (v <? 26) eqn:E1; [|destruct (v <? 52) eqn:E2; [|destruct (v <? 62) eqn:E3; [|destruct (v =? 62) eqn:E4]]]; unfold b64val; (split; [|lia]).
  - replace ((65 <=? 65 + v) && (65 + v <=? 90)) with true by lia. f_equal. lia.
  - replace ((65 <=? 71 + v) && (71 + v <=? 90)) with false by lia. replace ((97 <=? 71 + v) && (71 + v <=? 122)) with true by lia. f_equal. lia.
  - replace ((65 <=? v - 4) && (v - 4 <=? 90)) with false by lia. replace ((97 <=? v - 4) && (v - 4 <=? 122)) with false by lia. replace ((48 <=? v - 4) && (v - 4 <=? 57)) with true by lia. f_equal. lia.
  - cbn. f_equal. lia.
  - cbn. f_equal. lia.
Qed.
Lemma list3_ind (P : list Z -> Prop) : P [] -> (forall a, P [a]) -> (forall a b, P [a; b]) -> (forall a b c r, P r -> P (a :: b :: c :: r)) -> forall l, P l.
Proof.
  intros H0 H1 H2 H3. assert (Q : forall l, P l /\ (forall a, P (a :: l)) /\ forall a b, P (a :: b :: l)) by (induction l as [|x l (I1 & I2 & I3)]; [auto|]; split; [auto|]; split; [auto|]; intros a b; apply H3; auto). intros l. apply Q.
Qed.
Lemma unbase_base d : Forall (fun b => 0 <= b < 256) d -> unbase64 (base64 d) = Some d /\ Forall (fun c => 43 <= c <= 122) (base64 d).
Proof.
  revert d. apply (list3_ind (fun d => Forall (fun b => 0 <= b < 256) d -> unbase64 (base64 d) = Some d /\ Forall (fun c => 43 <= c <= 122) (base64 d))).
  - intros _. split; [reflexivity|constructor].
  - intros a H. rewrite !Forall_cons_iff in H. destruct H as (A & _). cbn [base64]. destruct (b64_val (a / 4) ltac:(lia)) as (V1 & N1 & R1), (b64_val (a mod 4 * 16) ltac:(lia)) as (V2 & N2 & R2).
    split; [|repeat constructor; lia]. cbn [unbase64]. rewrite V1, V2. cbn [Z.eqb Pos.eqb andb firstn bytes3]. unfold bytes3. cbn [firstn]. do 2 f_equal. lia.
  - intros a b H. rewrite !Forall_cons_iff in H. destruct H as (A & B & _). cbn [base64]. destruct (b64_val (a / 4) ltac:(lia)) as (V1 & N1 & R1), (b64_val (a mod 4 * 16 + b / 16) ltac:(lia)) as (V2 & N2 & R2), (b64_val (b mod 16 * 4) ltac:(lia)) as (V3 & N3 & R3).
    split; [|repeat constructor; lia]. cbn [unbase64]. rewrite V1, V2, V3. replace (b64char (b mod 16 * 4) =? 61) with false by lia. cbn [Z.eqb Pos.eqb andb]. unfold bytes3. cbn [firstn]. do 2 f_equal; [lia|]. f_equal. lia.
  - intros a b c r IH H. rewrite !Forall_cons_iff in H. destruct H as (A & B & C0 & R). destruct (IH R) as [I1 I2]. cbn [base64 app].
    destruct (b64_val (a / 4) ltac:(lia)) as (V1 & N1 & R1), (b64_val (a mod 4 * 16 + b / 16) ltac:(lia)) as (V2 & N2 & R2), (b64_val (b mod 16 * 4 + c / 64) ltac:(lia)) as (V3 & N3 & R3), (b64_val (c mod 64) ltac:(lia)) as (V4 & N4 & R4).
    split; [|repeat constructor; try lia; exact I2]. cbn [unbase64]. rewrite V1, V2, V3, V4, I1. replace (b64char (b mod 16 * 4 + c / 64) =? 61) with false by lia. cbn [andb]. replace (b64char (c mod 64) =? 61) with false by lia. unfold bytes3. cbn [app]. do 2 f_equal; [lia|]. f_equal; [lia|]. f_equal. lia.
Qed.
(** The terminal finds exactly one command in what is written, 52;c; and a payload that decodes to the data; nothing is left over. *)
Theorem C54_intact : forall d, Forall (fun b => 0 <= b < 256) d -> exists p, osc (osc52 d) = Some ([53; 50; 59; 99; 59] ++ p, []) /\ unbase64 p = Some d /\ Forall (fun c => 43 <= c <= 122) p.
Proof.
  intros d H. destruct (unbase_base d H) as [U F]. exists (base64 d). split; [|auto]. unfold osc52, osc. cbn [app].
  assert (P : forall x, Forall (fun c => 43 <= c <= 122) x -> osc_payload (x ++ [27; 92]) = Some (x, [])).
  { induction 1 as [|c x C0 X IH]; [reflexivity|]. cbn [app osc_payload]. rewrite IH. destruct c as [|q|q]; try lia. do 7 (destruct q as [q|q|]; try reflexivity; try lia). }
  pose proof (P (base64 d) F) as Q. change (osc_payload (53 :: 50 :: 59 :: 99 :: 59 :: base64 d ++ [27; 92])) with
    (match match match match match osc_payload (base64 d ++ [27; 92]) with Some (p, r) => Some (59 :: p, r) | None => None end with Some (p, r) => Some (99 :: p, r) | None => None end with Some (p, r) => Some (59 :: p, r) | None => None end with Some (p, r) => Some (50 :: p, r) | None => None end with Some (p, r) => Some (53 :: p, r) | None => None end).
  rewrite Q. reflexivity.
Qed.
(** Different data give different sequences. *)
Theorem C54_injective : forall d1 d2, Forall (fun b => 0 <= b < 256) d1 -> Forall (fun b => 0 <= b < 256) d2 -> osc52 d1 = osc52 d2 -> d1 = d2.
Proof.
  intros d1 d2 H1 H2 E. destruct (C54_intact d1 H1) as (p1 & A1 & B1 & _), (C54_intact d2 H2) as (p2 & A2 & B2 & _). rewrite E, A2 in A1. apply some_inj in A1. injection A1 as ->. congruence.
Qed.
Example C54_met : osc52 [104; 105] = [27; 93; 53; 50; 59; 99; 59; 97; 71; 107; 61; 27; 92]. Proof. reflexivity. Qed.

(* ---------- C57 ---------- *)
(** A text goes, unchanged, in one write to the first available provider and to no other; without one, or if empty, nothing is written. The
    call succeeds exactly when that write does. *)
Theorem C57_write : forall ps t, let '(ok, calls) := write_text ps t in
  (exists i p, nth_error ps i = Some p /\ available p = true /\ (forall j q, (j < i)%nat -> nth_error ps j = Some q -> available q = false) /\ t <> [] /\ calls = [PWrite i t Plain] /\ ok = writes p) \/
  ((t = [] \/ forall p, In p ps -> available p = false) /\ calls = [] /\ ok = false).
Proof.
  intros ps t. unfold write_text. destruct t as [|c t]; [right; auto|]. set (tt := c :: t).
  assert (FA : forall ps k, match first_available ps k with Some (i, p) => exists n, i = (k + n)%nat /\ nth_error ps n = Some p /\ available p = true /\ (forall j q, (j < n)%nat -> nth_error ps j = Some q -> available q = false) | None => forall p, In p ps -> available p = false end).
  { induction ps0 as [|p ps0 IH]; intros k; cbn [first_available]; [intros p []|]. destruct (available p) eqn:A.
    - exists 0%nat. split; [lia|]. split; [reflexivity|]. split; [auto|]. intros j q J. lia.
    - specialize (IH (S k)). destruct (first_available ps0 (S k)) as [[i q]|].
      + destruct IH as (n & -> & N1 & N2 & N3). exists (S n). split; [lia|]. split; [exact N1|]. split; [auto|]. intros [|j] q0 J Q; cbn [nth_error] in Q; [apply some_inj in Q; congruence|]. apply (N3 j); [lia|auto].
      + intros q [<-|Q]; auto. }
  specialize (FA ps 0%nat). destruct (first_available ps 0) as [[i p]|].
  - destruct FA as (n & -> & N1 & N2 & N3). left. exists n, p. repeat split; auto. discriminate.
  - right. auto.
Qed.
(** Likewise for reading: the first available provider's text, or an error. *)
Theorem C57_read : forall ps, let '(r, calls) := read_text ps in
  (exists i p, nth_error ps i = Some p /\ available p = true /\ (forall j q, (j < i)%nat -> nth_error ps j = Some q -> available q = false) /\ calls = [PRead i] /\
     r = match reads p with Some (d, m) => if is_text m then Some d else None | None => None end) \/
  ((forall p, In p ps -> available p = false) /\ calls = [] /\ r = None).
Proof.
  intros ps. unfold read_text. pose proof (C57_write ps [0]) as W. unfold write_text in W. destruct (first_available ps 0) as [[i p]|] eqn:E.
  - left. destruct W as [(i' & p' & W1 & W2 & W3 & _ & W5 & _)|(_ & W & _)]; [|discriminate]. injection W5 as <-. exists i.
    assert (FA : forall ps k i p, first_available ps k = Some (i, p) -> nth_error ps (i - k) = Some p /\ (k <= i)%nat /\ available p = true).
    { induction ps0 as [|q ps0 IH]; intros k i0 p0; cbn [first_available]; [discriminate|]. destruct (available q) eqn:A; [intros H; injection H as <- <-; rewrite Nat.sub_diag; auto|]. intros H. apply IH in H as (H1 & H2 & H3). replace (i0 - k)%nat with (S (i0 - S k)) by lia. split; [exact H1|split; [lia|auto]]. }
    destruct (FA ps 0%nat i p E) as (F1 & _ & F3). rewrite Nat.sub_0_r in F1. exists p. repeat split; auto.
  - right. destruct W as [(i' & p' & _ & _ & _ & _ & W & _)|([W|W] & _)]; [discriminate|discriminate|auto].
Qed.
(** With history on, a text is recorded exactly when its write succeeded, with the right type; nothing else changes. *)
Theorem C57_recorded : forall e c t m, m = Plain \/ m = Html \/ m = Rtf -> let '(c', ok, calls) := write_as m e c t in
  (ok, calls) = write_text (provs e) t /\
  match hist c with
  | None => hist c' = None
  | Some h => if ok then t <> [] /\ exists h', hist c' = Some h' /\ add h (fresh e) (now e) t m = Some h' /\ last (entries h') (E 0 [] Plain 0) = E (fresh e) t m (now e) else hist c' = hist c
  end.
Proof.
  intros e c t m _. unfold write_as. pose proof (C57_write (provs e) t) as W. destruct (write_text (provs e) t) as [ok calls]. split; [reflexivity|]. destruct ok.
  - destruct W as [(i & p & _ & _ & _ & NE & _)|(_ & _ & F)]; [|discriminate]. destruct (hist c) as [h|] eqn:EH; [|exact EH]. split; [auto|].
    destruct t as [|x t]; [congruence|]. cbn [add]. eexists. split; [reflexivity|]. split; [reflexivity|]. cbn [entries].
    destruct (_ && _) eqn:OV; [|apply last_last]. destruct (entries h) as [|a l]; [cbn [app length] in OV; lia|]. cbn [app tl]. apply last_last.
  - destruct (hist c); reflexivity.
Qed.
Example C57_met : write_text [P false None true; P true None true; P true None false] [104] = (true, [PWrite 1 [104] Plain]) /\ write_text [P true None false; P true None true] [104] = (false, [PWrite 0 [104] Plain]).
Proof. split; reflexivity. Qed.

(* ---------- C120 ---------- *)
(** What sort.Slice may return for a list (by falling time). *)
Definition sorted_result (l r : list entry) : Prop := Permutation l r /\ StronglySorted (fun x y => etime y <= etime x) r /\ ((length l <= 12)%nat -> r = isort l).
(** GetRecentHistory(k): the first [k] of it, all for k <= 0 (clipboard_history.go:101-123). *)
Definition recent (r : list entry) (k : Z) : list entry := if k <=? 0 then r else firstn (Z.to_nat k) r.
(** Entries recorded within one clock tick come oldest first: the most recent entry is not the last one written. *)
Theorem C205_same_tick_refuted : let es := [E 1 [65] Plain 5; E 2 [66] Plain 5] in exists r, sorted_result es r /\ (forall r', sorted_result es r' -> r' = r) /\ recent r 1 = [E 1 [65] Plain 5].
Proof.
  cbv zeta. exists [E 1 [65] Plain 5; E 2 [66] Plain 5]. split; [|split; [|reflexivity]].
  - split; [apply Permutation_refl|]. split; [repeat constructor; cbn; lia|reflexivity].
  - intros r' (_ & _ & H). apply H. cbn. lia.
Qed.
Lemma isort_perm l : Permutation l (isort l).
Proof.
  unfold isort. assert (IP : forall e l, Permutation (e :: l) (insert e l)).
  { intros e l0. induction l0 as [|x r IH]; [apply Permutation_refl|]. cbn [insert]. destruct (etime x <? etime e); [apply Permutation_refl|]. apply (Permutation_trans (l' := x :: e :: r)); [apply perm_swap|]. apply perm_skip. exact IH. }
  assert (G : forall l a, Permutation (a ++ l) (fold_left (fun a e => insert e a) l a)).
  { induction l0 as [|e l0 IH]; intros a; [rewrite app_nil_r; apply Permutation_refl|]. cbn [fold_left]. eapply Permutation_trans; [|apply IH]. apply (Permutation_trans (l' := (e :: a) ++ l0)); [apply Permutation_sym, Permutation_middle|]. apply Permutation_app_tail. apply IP. }
  apply (G l []).
Qed.
(** With a different time for each entry: exactly the entries, newest first, and the [k] newest of them. *)
Theorem C120_newest_first : forall es r k, StronglySorted (fun x y => etime x < etime y) es -> sorted_result es r -> r = rev es /\ recent r k = if k <=? 0 then rev es else firstn (Z.to_nat k) (rev es).
Proof.
  intros es r k S (PM & SR & _). assert (R : r = rev es); [|split; [exact R|unfold recent; rewrite R; reflexivity]].
  assert (PR : Permutation (rev es) r) by (eapply Permutation_trans; [apply Permutation_sym, Permutation_rev|exact PM]).
  assert (SD : StronglySorted (fun x y => etime y < etime x) (rev es)).
  { clear -S. induction S as [|x l S IH F]; [constructor|]. cbn [rev]. assert (FR : Forall (fun y => etime x < etime y) (rev l)) by (rewrite Forall_forall in *; intros y Y; apply F, in_rev; auto). clear S F. induction IH as [|y m S IH F]; cbn [app]; [repeat constructor|]. inversion_clear FR as [|? ? F1 F2]. constructor; [auto|]. apply Forall_app. split; [auto|]. constructor; [lia|constructor]. }
  clear S PM. revert r PR SR. induction SD as [|x l S IH F]; intros r PR SR; [apply Permutation_nil in PR; auto|].
  destruct r as [|y r]; [apply Permutation_sym, Permutation_nil in PR; discriminate|]. inversion_clear SR as [|? ? S1 S2].
  assert (XY : x = y).
  { assert (IX : In x (y :: r)) by (eapply Permutation_in; [exact PR|left; auto]). assert (IY : In y (x :: l)) by (eapply Permutation_in; [apply Permutation_sym; exact PR|left; auto]).
    destruct IX as [<-|IX]; auto. destruct IY as [->|IY]; auto. rewrite Forall_forall in *. specialize (S2 x IX). specialize (F y IY). lia. }
  subst y. f_equal. apply IH; auto. eapply Permutation_cons_inv; eauto.
Qed.
Example C120_met : let es := [E 1 [65] Plain 5; E 2 [66] Plain 7; E 3 [67] Html 9] in StronglySorted (fun x y => etime x < etime y) es /\ isort es = rev es.
Proof. cbv zeta. split; [repeat constructor; cbn; lia|reflexivity]. Qed.

(* ---------- C121 ---------- *)
(** A system clipboard: what was written last can be read; OSC 52 cannot be read at all (osc52_provider.go:30-34). *)
Definition at_state (k : kind) (osc_ok native_ok : bool) (store : option (list Z)) : provider :=
  match k with Osc52 => P osc_ok None true | Native => P native_ok (option_map (fun d => (d, Plain)) store) true | Custom _ => P false None false end.
(** A clipboard built with the builder's defaults prefers OSC 52 wherever the terminal supports it: nothing can be read back, although the
    system clipboard is there. Likewise over SSH with New. *)
Theorem C206_read_back_refuted : forall t store, t <> [] ->
  let ps st := map (fun k => at_state k true true st) (build [] true true) in
  fst (write_text (ps store) t) = true /\ fst (read_text (ps (Some t))) = None /\
  let ps st := map (fun k => at_state k true true st) (chain true true) in fst (write_text (ps store) t) = true /\ fst (read_text (ps (Some t))) = None.
Proof. intros t store NE. destruct t as [|c t]; [congruence|]. repeat split. Qed.
(** On a local machine with a system clipboard, a text that was written is read back. *)
Theorem C121_read_back : forall ssh tty osc_ok t store, ssh && tty = false -> t <> [] ->
  let ps st := map (fun k => at_state k osc_ok true st) (chain ssh tty) in
  fst (write_text (ps store) t) = true /\ snd (write_text (ps store) t) = [PWrite 0 t Plain] /\ fst (read_text (ps (Some t))) = Some t.
Proof. intros ssh tty osc_ok t store ST NE ps. unfold ps, chain. rewrite ST. destruct t as [|c t]; [congruence|]. repeat split. Qed.
(** Reading back when the first available provider is the system clipboard, whatever else is in the list. *)
Theorem C121_any_list : forall ks osc_ok t store i, nth_error ks i = Some Native -> t <> [] -> (forall j k, (j < i)%nat -> nth_error ks j = Some k -> available (at_state k osc_ok true store) = false) ->
  let ps st := map (fun k => at_state k osc_ok true st) ks in fst (write_text (ps store) t) = true /\ fst (read_text (ps (Some t))) = Some t.
Proof.
  intros ks osc_ok t store i NI NE LT ps. subst ps. cbv zeta.
  assert (AV : forall k st, available (at_state k osc_ok true st) = available (at_state k osc_ok true store)) by (intros [| |]; reflexivity).
  assert (FA : forall st b, exists j, first_available (map (fun k => at_state k osc_ok true st) ks) b = Some (j, at_state Native osc_ok true st)).
  { revert i NI LT. induction ks as [|k ks IH]; intros i NI LT st b; [destruct i; discriminate|]. cbn [map first_available]. destruct i as [|i]; cbn [nth_error] in NI.
    - apply some_inj in NI. subst k. cbn [at_state available]. eauto.
    - rewrite AV, (LT 0%nat k) by (auto; lia). apply (IH i NI). intros j k' J. apply (LT (S j)). lia. }
  unfold write_text, read_text. destruct t as [|c t]; [congruence|]. destruct (FA store 0%nat) as (j & ->). destruct (FA (Some (c :: t)) 0%nat) as (j2 & ->). split; reflexivity.
Qed.
Example C121_met : chain false true = [Native; Osc52] /\ nth_error [Osc52; Native] 1 = Some Native /\ available (at_state Osc52 false true None) = false.
Proof. repeat split. Qed.

(* ---------- C122 ---------- *)
(** The OSC 52 write under every interleaving of writer, timer and caller: a reported success means the sequence was written and flushed. *)
Theorem C122_success : forall w, wreach w -> result w = Some true -> sent w = true /\ flushed w = true.
Proof.
  intros w R. enough ((chan w = Some true -> sent w = true /\ flushed w = true) /\ (result w = Some true -> sent w = true /\ flushed w = true) /\ (pc w = 1%nat -> sent w = true)) by tauto.
  induction R as [|a b R (I1 & I2 & I3) S]; [repeat split; intros; discriminate|].
  destruct S; cbn [chan result sent flushed pc] in *; repeat split; intros; try discriminate; try tauto; try (apply I1; congruence); try (apply I2; congruence); auto; try congruence.
  all: match goal with Hx : _ = Some true |- _ => first [destruct (I1 Hx) as [-> _]|destruct (I2 Hx) as [-> _]] end; reflexivity.
Qed.
(** The writer never blocks: whatever the caller does, it can finish, so no goroutine is left behind. *)
Theorem C122_writer_finishes : forall w, wreach w -> (pc w <= 2)%nat /\ ((pc w < 2)%nat -> chan w = None /\ exists w', wstep w w' /\ (pc w < pc w')%nat).
Proof.
  intros w R. enough ((pc w <= 2)%nat /\ ((pc w < 2)%nat -> chan w = None)) as [A B].
  { split; [exact A|]. intros L. split; [auto|]. specialize (B L). destruct w as [p c f r s y]. cbn [pc chan] in *. subst c. destruct p as [|[|p]]; [| |lia]; eexists; (split; [constructor|cbn; lia]). }
  induction R as [|a b R (I1 & I2) S]; [cbn; split; auto; lia|]. destruct S; cbn [pc chan] in *; split; try lia; intros; auto; try (specialize (I2 ltac:(lia)); congruence).
Qed.
(** But a reported timeout does not mean that nothing is written: the sequence is written later. *)
Theorem C207_timeout_refuted : exists w, wreach w /\ result w = Some false /\ sent w = false /\ exists w', wstep w w' /\ sent w' = true /\ result w' = Some false.
Proof.
  exists (W 0 None true (Some false) false false). split; [|repeat split].
  - eapply WNext; [eapply WNext; [apply WInit|]|]; [apply WTimer|apply WTimeout].
  - eexists. split; [apply WWrite|]. split; reflexivity.
Qed.
(** A timeout is only reported after the time is up. *)
Theorem C122_failure : forall w, wreach w -> result w = Some false -> fired w = true \/ pc w = 2%nat.
Proof.
  intros w R. enough ((chan w = Some false -> pc w = 2%nat) /\ (result w = Some false -> fired w = true \/ pc w = 2%nat)) by tauto.
  induction R as [|a b R (I1 & I2) S]; [split; intros; discriminate|]. destruct S; cbn [chan result fired pc] in *; split; intros; try discriminate; auto; try (destruct I2; auto; lia); try (right; apply I1; congruence).
  all: try (specialize (I1 H); lia).
Qed.
Example C122_met : exists w, wreach w /\ result w = Some true.
Proof. eexists. split; [eapply WNext; [eapply WNext; [eapply WNext; [apply WInit|apply WWrite]|apply WSync]|apply WDone]|reflexivity]. Qed.

(* ---------- C123 ---------- *)
(** Histories recorded through the clipboard hold non-empty text entries only. *)
Definition texts (c : clip) : Prop := forall h e, hist c = Some h -> In e (entries h) -> is_text (emime e) = true /\ econtent e <> [].
Lemma write_as_texts m e c t : is_text m = true -> texts c -> texts (fst (fst (write_as m e c t))).
Proof.
  intros M T. unfold write_as. destruct (write_text (provs e) t) as [ok calls]. cbn [fst]. destruct ok; [|exact T]. destruct (hist c) as [h|] eqn:EH; [|exact T].
  intros h' x H X. destruct t as [|a t]; cbn [add hist] in H; apply some_inj in H; subst h'; [apply (T h); auto|]. cbn [entries] in X.
  assert (X2 : In x (entries h ++ [E (fresh e) (a :: t) m (now e)])) by (destruct (_ && _); auto; destruct (entries h ++ [_]); [destruct X|right; exact X]). apply in_app_or in X2 as [X2|[<-|[]]]; [apply (T h); auto|]. cbn [emime econtent]. split; [auto|discriminate].
Qed.
Lemma exec_texts e c k : texts c -> texts (fst (fst (exec e c k))).
Proof.
  intros T. destruct k; cbn [exec]; try (apply write_as_texts; auto; fail).
  - intros h x H X. cbn in H. apply some_inj in H. subst h. destruct X.
  - intros h x H. discriminate.
  - intros h x H X. cbn [fst hist] in H. destruct (hist c); [|discriminate]. cbn in H. apply some_inj in H. subst h. destruct X.
  - intros h x H X. cbn [fst hist] in H. destruct (hist c) as [h0|] eqn:EH; [|discriminate]. cbn [option_map] in H. apply some_inj in H. subst h. apply (T h0); auto. unfold remove_expired in X. destruct (maxAge h0 <=? 0); cbn [fst entries] in X; [auto|]. apply filter_In in X. tauto.
  - unfold restore. destruct (hist c) as [h|] eqn:EH; [|exact T]. destruct (get h id) as [en|] eqn:G; [|exact T]. apply find_some in G as [G _]. destruct (T h en EH G) as [TM _]. rewrite TM. apply write_as_texts; auto.
Qed.
Definition run (c : clip) (l : list (env * call)) : clip := fold_left (fun c x => fst (fst (exec (fst x) c (snd x)))) l c.
(** Restoring an entry, after any calls: its content goes back to the clipboard and, when that succeeds, becomes the newest entry, with its
    type; when it fails the history is unchanged. An unknown id changes nothing. *)
Theorem C123_restore : forall l e id, let c := run (C None) l in let '(c', ok, calls) := restore e c id in
  match hist c with
  | None => ok = false /\ calls = [] /\ c' = c
  | Some h =>
    match get h id with
    | None => ok = false /\ calls = [] /\ c' = c /\ forall x, In x (entries h) -> eid x <> id
    | Some en => In en (entries h) /\ eid en = id /\ (ok, calls) = write_text (provs e) (econtent en) /\
        if ok then exists h', hist c' = Some h' /\ last (entries h') (E 0 [] Plain 0) = E (fresh e) (econtent en) (emime en) (now e) else hist c' = hist c
    end
  end.
Proof.
  intros l e id. cbv zeta.
  assert (T : texts (run (C None) l)).
  { unfold run. assert (T0 : texts (C None)) by (intros h x H; discriminate). revert T0. generalize (C None). induction l as [|x l IH]; intros c T; [exact T|]. cbn [fold_left]. apply IH. apply exec_texts. exact T. }
  set (c := run (C None) l) in *. clearbody c. unfold restore. destruct (hist c) as [h|] eqn:EH; [|repeat split].
  destruct (get h id) as [en|] eqn:G.
  - apply find_some in G as [G1 G2]. destruct (T h en EH G1) as [TM NE]. rewrite TM. pose proof (C57_recorded e c (econtent en) (emime en) ltac:(destruct (emime en); auto; discriminate)) as W.
    destruct (write_as (emime en) e c (econtent en)) as [[c' ok] calls]. destruct W as [W1 W2]. split; [auto|]. split; [lia|]. split; [auto|]. rewrite EH in W2. destruct ok; [|auto]. destruct W2 as (_ & h' & W3 & _ & W4). eauto.
  - repeat split; auto. intros x X EQ. unfold get in G. pose proof (find_none _ _ G x X) as Q. cbn in Q. lia.
Qed.
Example C123_met : let e := Env [P true None true] 7 9 in let c := run (C None) [(e, EnableHistory 3 0); (Env [P true None true] 5 1, WriteHTML [60; 98; 62])] in
  map eid (match hist c with Some h => entries h | None => [] end) = [1] /\ let '(c', ok, calls) := restore e c 1 in ok = true /\ calls = [PWrite 0 [60; 98; 62] Plain].
Proof. cbv zeta. repeat split. Qed.

Print Assumptions C53_newest_kept. Print Assumptions C53_steps. Print Assumptions C54_intact. Print Assumptions C54_injective.
Print Assumptions C57_write. Print Assumptions C57_read. Print Assumptions C57_recorded. Print Assumptions C205_same_tick_refuted.
Print Assumptions C120_newest_first. Print Assumptions C206_read_back_refuted. Print Assumptions C121_read_back. Print Assumptions C121_any_list.
Print Assumptions C122_success. Print Assumptions C122_writer_finishes. Print Assumptions C207_timeout_refuted. Print Assumptions C122_failure.
Print Assumptions C123_restore.
