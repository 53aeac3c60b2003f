(** Clipboard: the builder, the choice of providers in an environment, the history as the public methods show it, and what is reported. *)
From Coq Require Import Permutation Sorted.
From Coq Require String Ascii.
From Verif Require Import Prelude Text CbModel CbProps.
Import String.StringSyntax.

(* ---------- C196 ---------- *)
(** The last value given to a setting, and the custom providers in the order they were added. *)
Fixpoint last_of {A} (f : bop -> option A) (d : A) (os : list bop) : A := match os with [] => d | o :: r => last_of f (match f o with Some v => v | None => d end) r end.
Definition set_osc (o : bop) : option bool := match o with WithOSC52 v => Some v | _ => None end.
Definition set_native (o : bop) : option bool := match o with WithNative v => Some v | _ => None end.
Definition set_timeout (o : bop) : option Z := match o with WithOSC52Timeout v => Some v | _ => None end.
Fixpoint added (os : list bop) : list nat := match os with [] => [] | WithProvider n :: r => n :: added r | _ :: r => added r end.
(** Whatever the order of the builder calls: Build fails only without any provider; otherwise the custom providers come first in the order
    added, then OSC 52, then the system clipboard, with the last value of each setting. *)
Theorem C196_builder : forall os, let b := fold_left bstep os new_builder in
  let osc := last_of set_osc true os in let nat_on := last_of set_native true os in
  (build_clip b = None <-> added os = [] /\ osc = false /\ nat_on = false) /\
  forall ps t, build_clip b = Some (ps, t) ->
    t = last_of set_timeout 5000 os /\
    (forall i, (i < length (added os))%nat -> nth_error ps i = option_map Custom (nth_error (added os) i)) /\
    (In Osc52 ps <-> osc = true) /\ (In Native ps <-> nat_on = true) /\
    (osc = true -> nth_error ps (length (added os)) = Some Osc52) /\ (nat_on = true -> last ps Osc52 = Native) /\
    length ps = (length (added os) + (if osc then 1 else 0) + (if nat_on then 1 else 0))%nat.
Proof.
  assert (G : forall os b, let r := fold_left bstep os b in customs r = customs b ++ added os /\ osc52Enabled r = last_of set_osc (osc52Enabled b) os /\ nativeEnabled r = last_of set_native (nativeEnabled b) os /\ osc52Timeout r = last_of set_timeout (osc52Timeout b) os).
  { induction os as [|o os IH]; intros b; cbv zeta; [cbn; rewrite app_nil_r; auto|]. cbn [fold_left]. destruct (IH (bstep b o)) as (A1 & A2 & A3 & A4). rewrite A1, A2, A3, A4. destruct o; cbn [bstep customs osc52Enabled nativeEnabled osc52Timeout added last_of set_osc set_native set_timeout]; rewrite ?app_nil_r, <- ?app_assoc; auto. }
  intros os b osc nat_on. destruct (G os new_builder) as (A1 & A2 & A3 & A4). fold b in A1, A2, A3, A4. cbn [new_builder customs osc52Enabled nativeEnabled osc52Timeout app] in A1, A2, A3, A4. fold osc in A2. fold nat_on in A3.
  unfold build_clip, build. rewrite A1, A2, A3, A4. clearbody osc nat_on. clear G A1 A2 A3 A4 b. set (cs := added os). split.
  - destruct cs as [|n cs]; cbn [map app]; destruct osc, nat_on; cbn [app]; split; try discriminate; try (intros (? & ? & ?); discriminate); auto.
  - intros ps t. destruct (map Custom cs ++ _) as [|k ks] eqn:EB; [discriminate|]. intros H. injection H as <- <-. split; [reflexivity|]. rewrite <- EB. clear EB k ks.
    assert (NI : forall x, In x (map Custom cs) -> x <> Osc52 /\ x <> Native) by (intros x X; apply in_map_iff in X as (n & <- & _); split; discriminate).
    repeat split.
    + intros i L. rewrite nth_error_app1 by (rewrite map_length; auto). apply nth_error_map.
    + intros I. apply in_app_or in I as [I|I]; [apply NI in I; tauto|]. destruct osc; auto. destruct nat_on; cbn in I; intuition discriminate.
    + intros ->. apply in_or_app. right. left. reflexivity.
    + intros I. apply in_app_or in I as [I|I]; [apply NI in I; tauto|]. destruct nat_on; auto. destruct osc; cbn in I; intuition discriminate.
    + intros ->. apply in_or_app. right. apply in_or_app. right. left. reflexivity.
    + intros ->. rewrite nth_error_app2 by (rewrite map_length; auto). rewrite map_length, Nat.sub_diag. reflexivity.
    + intros ->. rewrite app_assoc. apply last_last.
    + rewrite !app_length, map_length. destruct osc, nat_on; cbn; lia.
Qed.
Example C196_met : build_clip (fold_left bstep [WithProvider 4; WithOSC52 false; WithProvider 2; WithOSC52 true; WithOSC52Timeout 10] new_builder) = Some ([Custom 4; Custom 2; Osc52; Native], 10).
Proof. reflexivity. Qed.

(* ---------- C209 ---------- *)
(** "Builder with zero value is valid and ready to use with default settings": its Build fails. *)
Theorem C209_zero_builder_refuted : build_clip (Bd [] false 0 false) = None /\ build_clip new_builder <> None.
Proof. split; [reflexivity|discriminate]. Qed.
Theorem C209_zero_builder_partial : forall os, (added os <> [] \/ last_of set_osc false os = true \/ last_of set_native false os = true) -> build_clip (fold_left bstep os (Bd [] false 0 false)) <> None.
Proof.
  assert (G : forall os b, let r := fold_left bstep os b in customs r = customs b ++ added os /\ osc52Enabled r = last_of set_osc (osc52Enabled b) os /\ nativeEnabled r = last_of set_native (nativeEnabled b) os).
  { induction os as [|o os IH]; intros b; cbv zeta; [cbn; rewrite app_nil_r; auto|]. cbn [fold_left]. destruct (IH (bstep b o)) as (A1 & A2 & A3). rewrite A1, A2, A3. destruct o; cbn [bstep customs osc52Enabled nativeEnabled added last_of set_osc set_native]; rewrite ?app_nil_r, <- ?app_assoc; auto. }
  intros os H. destruct (G os (Bd [] false 0 false)) as (A1 & A2 & A3). unfold build_clip, build. rewrite A1, A2, A3. cbn [customs osc52Enabled nativeEnabled app].
  destruct (added os) as [|n l]; cbn [map app]; [|discriminate]. destruct H as [H|[-> | ->]]; [congruence|discriminate|]. destruct (last_of set_osc false os); discriminate.
Qed.

(* ---------- C197 ---------- *)
(** New: both providers are always there; OSC 52 comes first exactly in an SSH session on a terminal. OSC 52 is offered only on a terminal,
    over SSH or with one of the known terminal types. *)
Definition asc (s : String.string) : list Z := map (fun a => Z.of_nat (Ascii.nat_of_ascii a)) (String.list_ascii_of_string s).
Arguments asc s%string_scope.
Definition known_terms : list (list Z) := [asc "xterm"; asc "xterm-256color"; asc "screen"; asc "tmux"; asc "tmux-256color"].
Theorem C197_new : forall v1 v2 v3 term tty, let ps := new_clip v1 v2 v3 tty in
  let ssh := v1 <> [] \/ v2 <> [] \/ v3 <> [] in
  Permutation ps [Native; Osc52] /\
  (ssh /\ tty = true -> ps = [Osc52; Native]) /\ (~ (ssh /\ tty = true) -> ps = [Native; Osc52]) /\
  (is_ssh v1 v2 v3 = true <-> ssh) /\
  (osc_is_available v1 v2 v3 term tty = true <-> tty = true /\ (ssh \/ In term known_terms)).
Proof.
  change known_terms with osc_terms.
  intros v1 v2 v3 term tty ps ssh.
  assert (IS : is_ssh v1 v2 v3 = true <-> ssh).
  { unfold is_ssh, ssh. destruct v1, v2, v3; cbn [list_eqb negb]; split; intros H; auto; try (left; discriminate); try (right; left; discriminate); try (right; right; discriminate); try discriminate; intuition congruence. }
  assert (T : In term osc_terms <-> existsb (list_eqb term) osc_terms = true).
  { rewrite existsb_exists. split; [intros I; exists term; split; auto; apply list_eqb_refl|intros (x & I & Q); apply list_eqb_eq in Q; subst; auto]. }
  assert (NS : is_ssh v1 v2 v3 = false -> ~ ssh) by (intros F Q; apply IS in Q; congruence).
  unfold ps, new_clip, chain, osc_is_available. rewrite T. clearbody ssh. destruct (is_ssh v1 v2 v3) eqn:ES, tty; cbn [andb negb].
  - assert (Q : ssh) by (apply IS; reflexivity). split; [apply perm_swap|]. split; [reflexivity|]. split; [tauto|]. split; [exact IS|]. tauto.
  - assert (Q : ssh) by (apply IS; reflexivity). split; [apply Permutation_refl|]. split; [intros [_ ?]; discriminate|]. split; [reflexivity|]. split; [exact IS|]. split; [discriminate|intros [? _]; discriminate].
  - specialize (NS eq_refl). split; [apply Permutation_refl|]. split; [tauto|]. split; [reflexivity|]. split; [exact IS|]. tauto.
  - specialize (NS eq_refl). split; [apply Permutation_refl|]. split; [tauto|]. split; [reflexivity|]. split; [exact IS|]. split; [discriminate|intros [? _]; discriminate].
Qed.
Example C197_met : new_clip [] [49] [] true = [Osc52; Native] /\ osc_is_available [] [] [] [116;109;117;120] true = true /\ osc_is_available [] [] [] [120] true = false.
Proof. repeat split. Qed.

(* ---------- C198 ---------- *)
(** Which programs a tool needs. *)
Definition installed (wl_copy wl_paste xclip xsel : bool) (t : tool) : bool := match t with WlClipboard => wl_copy && wl_paste | Xclip => xclip | Xsel => xsel end.
Definition rank (t : tool) : Z := match t with WlClipboard => 0 | Xclip => 1 | Xsel => 2 end.
(** The Linux provider: available exactly when a complete tool is installed; it uses the most preferred of those, for reading and writing, so
    a text written is read back. *)
Theorem C198_linux : forall wc wp xc xs works store, let p := linux_native wc wp xc xs works store in
  (available p = true <-> exists t, installed wc wp xc xs t = true) /\
  (available p = true -> exists t, installed wc wp xc xs t = true /\ (forall t', installed wc wp xc xs t' = true -> rank t <= rank t') /\
     writes p = works t /\ (writes p = true -> forall d, d <> [] -> reads (linux_native wc wp xc xs works (Some d)) = Some (d, Plain)) /\ (works t = false -> reads p = None)) /\
  (available p = false -> reads p = None /\ writes p = false).
Proof.
  intros wc wp xc xs works store p. subst p. unfold linux_native, native_tool.
  assert (Z0 : forall t, 0 <= rank t <= 2) by (intros []; cbn; lia).
  destruct (wc && wp) eqn:EW; [|destruct xc; [|destruct xs]].
  - split; [split; [exists WlClipboard; exact EW|reflexivity]|]. split; [intros _|discriminate]. exists WlClipboard. split; [exact EW|]. split; [intros t' _; specialize (Z0 t'); cbn; lia|]. cbn [writes reads]. repeat split; [intros -> [|c d] NE; [congruence|reflexivity]|intros ->; reflexivity].
  - split; [split; [exists Xclip; reflexivity|reflexivity]|]. split; [intros _|discriminate]. exists Xclip. split; [reflexivity|]. split; [intros [| |] H; cbn in *; try lia; congruence|]. cbn [writes reads]. repeat split; [intros -> [|c d] NE; [congruence|reflexivity]|intros ->; reflexivity].
  - split; [split; [exists Xsel; reflexivity|reflexivity]|]. split; [intros _|discriminate]. exists Xsel. split; [reflexivity|]. split; [intros [| |] H; cbn in *; try lia; congruence|]. cbn [writes reads]. repeat split; [intros -> [|c d] NE; [congruence|reflexivity]|intros ->; reflexivity].
  - split; [split; [discriminate|intros ([| |] & H); cbn in H; congruence]|]. split; [discriminate|]. intros _. repeat split.
Qed.
Example C198_met : native_tool true false true true = Some Xclip /\ native_tool true true true true = Some WlClipboard. Proof. repeat split. Qed.

(* ---------- C199 ---------- *)
(** With the Wayland tools installed in an X11 session the provider picks them although they cannot reach a clipboard and xclip could. *)
Theorem C199_usable_tool_refuted : exists works, works Xclip = true /\ installed true true true false Xclip = true /\ forall t store, t <> [] ->
  fst (write_text [linux_native true true true false works store; P true None true] t) = false.
Proof. exists (fun t => match t with Xclip => true | _ => false end). repeat split. intros [|c t] store NE; [congruence|]. reflexivity. Qed.
(** If every installed tool works, so does the provider. *)
Theorem C199_usable_tool_partial : forall wc wp xc xs works store t, (forall k, installed wc wp xc xs k = true -> works k = true) -> (exists k, installed wc wp xc xs k = true) -> t <> [] ->
  fst (write_text [linux_native wc wp xc xs works store] t) = true.
Proof.
  intros wc wp xc xs works store t ALL EX NE. destruct (C198_linux wc wp xc xs works store) as (A & B & _). apply A in EX. destruct (B EX) as (k & K1 & _ & K2 & _). destruct t as [|c t]; [congruence|].
  unfold write_text. cbn [first_available]. rewrite EX. cbn [fst]. rewrite K2. auto.
Qed.

(* ---------- C200 ---------- *)
(** No fallback on failure: when the first available provider fails, the next one is not tried. *)
Theorem C200_fallback_refuted : exists ps t, t <> [] /\ (exists p, In p ps /\ available p = true /\ writes p = true) /\ write_text ps t = (false, [PWrite 0 t Plain]).
Proof. exists [P true None false; P true None true], [104]. split; [discriminate|]. split; [exists (P true None true); split; [right; left|]; auto|reflexivity]. Qed.
(** Unavailable providers are skipped: a text is written if the available ones work and there is one. *)
Theorem C200_fallback_partial : forall ps t, t <> [] -> (exists p, In p ps /\ available p = true) -> (forall p, In p ps -> available p = true -> writes p = true) -> fst (write_text ps t) = true.
Proof.
  intros ps t NE (p & IP & AP) ALL. pose proof (C57_write ps t) as W. destruct (write_text ps t) as [ok calls]. destruct W as [(i & q & Q1 & Q2 & _ & _ & _ & ->)|(H & _ & ->)].
  - apply ALL; auto. eapply nth_error_In; eauto.
  - destruct H as [H|H]; [congruence|]. rewrite (H p IP) in AP. discriminate.
Qed.

(* ---------- C201 ---------- *)
(** What the methods' documentation says the history is, from the calls and the providers alone: nothing before EnableHistory and after
    DisableHistory; EnableHistory starts with an empty one; each text accepted by the first available provider is recorded; of the recorded
    ones the last [limit] are kept. *)
Definition accepted (ps : list provider) (t : list Z) : Prop := t <> [] /\ exists i p, nth_error ps i = Some p /\ available p = true /\ writes p = true /\ forall j q, (j < i)%nat -> nth_error ps j = Some q -> available q = false.
Definition lastn (n : Z) (l : list entry) : list entry := if n <=? 0 then l else skipn (length l - Z.to_nat n) l.
Inductive recorded : list (env * call) -> option (Z * list entry) -> Prop :=
| RNone : recorded [] None
| REnable l e n age s : recorded l s -> recorded (l ++ [(e, EnableHistory n age)]) (Some (n, []))
| RDisable l e s : recorded l s -> recorded (l ++ [(e, DisableHistory)]) None
| RClear l e s : recorded l s -> recorded (l ++ [(e, ClearHistory)]) (option_map (fun x => (fst x, [])) s)
| RExpire l e s : recorded l s -> recorded (l ++ [(e, RemoveExpired)]) s
| RWrite l e s k t m : recorded l s -> (k, m) = (Write t, Plain) \/ (k, m) = (WriteHTML t, Html) \/ (k, m) = (WriteRTF t, Rtf) -> accepted (provs e) t ->
    recorded (l ++ [(e, k)]) (option_map (fun x => (fst x, snd x ++ [E (fresh e) t m (now e)])) s)
| RRefused l e s k t : recorded l s -> k = Write t \/ k = WriteHTML t \/ k = WriteRTF t -> ~ accepted (provs e) t -> recorded (l ++ [(e, k)]) s
| RRestore l e id n es en : recorded l (Some (n, es)) -> find (fun x => eid x =? id) (lastn n es) = Some en -> accepted (provs e) (econtent en) ->
    recorded (l ++ [(e, Restore id)]) (Some (n, es ++ [E (fresh e) (econtent en) (emime en) (now e)]))
| RRestoreNot l e id n es : recorded l (Some (n, es)) -> (forall en, find (fun x => eid x =? id) (lastn n es) = Some en -> ~ accepted (provs e) (econtent en)) -> recorded (l ++ [(e, Restore id)]) (Some (n, es))
| RRestoreOff l e id : recorded l None -> recorded (l ++ [(e, Restore id)]) None.
Lemma accepted_ok ps t : fst (write_text ps t) = true <-> accepted ps t.
Proof.
  pose proof (C57_write ps t) as W. destruct (write_text ps t) as [ok calls]. cbn [fst]. destruct W as [(i & p & P1 & P2 & P3 & P4 & _ & ->)|(H & _ & ->)].
  - split; [intros WP; split; [auto|]; exists i, p; auto|]. intros (_ & j & q & Q1 & Q2 & Q3 & Q4). destruct (lt_eq_lt_dec i j) as [[L|<-]|L]; [rewrite (Q4 i p L P1) in P2; discriminate|congruence|rewrite (P3 j q L Q1) in Q2; discriminate].
  - split; [discriminate|]. intros (NE & j & q & Q1 & Q2 & _). destruct H as [H|H]; [congruence|]. apply nth_error_In in Q1. rewrite (H q Q1) in Q2. discriminate.
Qed.
Lemma lastn_snoc n l e : let es := lastn n l ++ [e] in lastn n (l ++ [e]) = if (0 <? Z.max 0 n) && (Z.max 0 n <? Z.of_nat (length es)) then tl es else es.
Proof.
  cbv zeta. unfold lastn. destruct (n <=? 0) eqn:EN; [replace (0 <? Z.max 0 n) with false by lia; reflexivity|]. replace (0 <? Z.max 0 n) with true by lia. cbn [andb].
  rewrite !app_length, skipn_length. cbn [length]. destruct (Z.max 0 n <? _) eqn:EL.
  - assert (L : (Z.to_nat n <= length l)%nat) by lia. replace (length l + 1 - Z.to_nat n)%nat with (S (length l - Z.to_nat n)) by lia.
    rewrite skipn_app. replace (S (length l - Z.to_nat n) - length l)%nat with 0%nat by lia. cbn [skipn]. assert (D : (length l - Z.to_nat n < length l)%nat) by lia. revert D. generalize (length l - Z.to_nat n)%nat as k. clear. induction l as [|x l IH]; intros k D; [cbn in D; lia|]. destruct k as [|k]; [reflexivity|]. cbn [skipn]. apply IH. cbn in D. lia.
  - replace (length l + 1 - Z.to_nat n)%nat with 0%nat by lia. replace (length l - Z.to_nat n)%nat with 0%nat by lia. reflexivity.
Qed.
(** After any calls (with age limit 0, so nothing expires): the history is the last [limit] recorded texts, in order; its size and total size
    are those of that list. *)
Theorem C201_history : forall l s, recorded l s -> (forall e n age, In (e, EnableHistory n age) l -> age <= 0) ->
  let c := run (C None) l in
  match s with
  | None => history_enabled c = false /\ history_size c = 0 /\ history_total c = 0 /\ forall id, history_entry c id = None
  | Some (n, es) => history_enabled c = true /\ option_map entries (hist c) = Some (lastn n es) /\ history_size c = (if n <=? 0 then Z.of_nat (length es) else Z.min n (Z.of_nat (length es))) /\
      history_total c = fold_right Z.add 0 (map (fun e => Z.of_nat (length (econtent e))) (lastn n es))
  end.
Proof.
  intros l s R AGE. cbv zeta.
  enough (Q : hist (run (C None) l) = option_map (fun x => H (lastn (fst x) (snd x)) (Z.max 0 (fst x)) 0) s /\ match s with Some (n, es) => forall e, In e es -> is_text (emime e) = true | None => True end).
  { destruct Q as [Q _]. unfold history_enabled, history_size, history_total, history_entry. rewrite Q. destruct s as [[n es]|]; cbn [option_map fst snd entries]; [|repeat split]. repeat split.
    - unfold lastn. destruct (n <=? 0) eqn:EN; [reflexivity|]. rewrite skipn_length. lia.
    - unfold total_size. cbn [entries]. generalize (lastn n es) as m. assert (G : forall m a, fold_left (fun a e => a + Z.of_nat (length (econtent e))) m a = a + fold_right Z.add 0 (map (fun e => Z.of_nat (length (econtent e))) m)) by (induction m as [|x m IH]; intros a; cbn [fold_left map fold_right]; [lia|rewrite IH; lia]). intros m. rewrite G. lia. }
  assert (RS : forall l x, run (C None) (l ++ [x]) = fst (fst (exec (fst x) (run (C None) l) (snd x)))) by (intros; unfold run; rewrite fold_left_app; reflexivity).
  assert (SN : forall l (x : env * call), (forall e n age, In (e, EnableHistory n age) (l ++ [x]) -> age <= 0) -> forall e n age, In (e, EnableHistory n age) l -> age <= 0) by (intros l0 x H e n age I; apply (H e n age); apply in_or_app; auto).
  assert (WA : forall e c m t (x : option (Z * list entry)), is_text m = true -> hist c = option_map (fun x => H (lastn (fst x) (snd x)) (Z.max 0 (fst x)) 0) x -> accepted (provs e) t ->
     hist (fst (fst (write_as m e c t))) = option_map (fun x => H (lastn (fst x) (snd x)) (Z.max 0 (fst x)) 0) (option_map (fun x => (fst x, snd x ++ [E (fresh e) t m (now e)])) x)).
  { intros e c m t x _ HC A. pose proof (proj2 (accepted_ok _ _) A) as OK. unfold write_as. destruct (write_text (provs e) t) as [ok calls]. cbn [fst] in *. subst ok. rewrite HC. destruct x as [[n es]|]; cbn [option_map fst snd]; [|exact HC].
    destruct A as [NE _]. destruct t as [|a t]; [congruence|]. cbn [add hist entries maxSize maxAge]. rewrite lastn_snoc. reflexivity. }
  assert (WN : forall e c m t, ~ accepted (provs e) t -> fst (fst (write_as m e c t)) = c).
  { intros e c m t A. unfold write_as. pose proof (accepted_ok (provs e) t) as AK. destruct (write_text (provs e) t) as [ok calls]. cbn [fst] in *. destruct ok; [exfalso; apply A, AK; reflexivity|reflexivity]. }
  assert (WT : forall n es e t m, (forall x, In x es -> is_text (emime x) = true) -> is_text m = true -> forall x, In x (es ++ [E (fresh e) t m n]) -> is_text (emime x) = true).
  { intros n es e t m F M x I. apply in_app_or in I as [I|[<-|[]]]; auto. }
  assert (LI : forall n es x, In x (lastn n es) -> In x es). { intros n es x. unfold lastn. destruct (n <=? 0); auto. intros I. rewrite <- (firstn_skipn (length es - Z.to_nat n) es). apply in_or_app. auto. }
  induction R as [|l e n age s R IH|l e s R IH|l e s R IH|l e s R IH|l e s k t m R IH KM A|l e s k t R IH K A|l e id n es en R IH F A|l e id n es R IH F|l e id R IH].
  - split; reflexivity.
  - rewrite RS. cbn [exec fst snd hist option_map]. assert (AG : age <= 0) by (apply (AGE e n age); apply in_or_app; right; left; reflexivity). split; [|intros x []]. unfold new_history, lastn. replace (Z.max 0 age) with 0 by lia. destruct (n <=? 0); reflexivity.
  - rewrite RS. split; [reflexivity|exact Logic.I].
  - rewrite RS. destruct (IH (SN _ _ AGE)) as [H1 H2]. cbn [exec fst snd hist]. rewrite H1. destruct s as [[n es]|]; cbn [option_map fst snd]; [|auto]. split; [|intros x []]. unfold clear, lastn. cbn [maxSize maxAge]. destruct (n <=? 0); reflexivity.
  - rewrite RS. destruct (IH (SN _ _ AGE)) as [H1 H2]. cbn [exec fst snd hist]. rewrite H1. split; [|exact H2]. destruct s as [[n es]|]; reflexivity.
  - rewrite RS. destruct (IH (SN _ _ AGE)) as [H1 H2]. cbn [fst snd]. assert (EX : exec e (run (C None) l) k = write_as m e (run (C None) l) t /\ is_text m = true) by (destruct KM as [KM|[KM|KM]]; injection KM as -> ->; split; reflexivity).
    destruct EX as [-> M]. split; [apply WA; auto|]. destruct s as [[n es]|]; cbn [option_map fst snd]; [|auto]. apply WT; auto.
  - rewrite RS. destruct (IH (SN _ _ AGE)) as [H1 H2]. cbn [fst snd]. split; [|exact H2]. destruct K as [-> |[-> | ->]]; cbn [exec]; rewrite WN; auto.
  - rewrite RS. destruct (IH (SN _ _ AGE)) as [H1 H2]. cbn [fst snd exec]. assert (TX : is_text (emime en) = true) by (apply H2; apply find_some in F as [F _]; eapply LI; eauto).
    split; [|apply WT; auto]. unfold restore. rewrite H1. cbn [option_map fst snd]. unfold get. cbn [entries]. rewrite F, TX. apply (WA e _ (emime en) (econtent en) (Some (n, es))); auto.
  - rewrite RS. destruct (IH (SN _ _ AGE)) as [H1 H2]. cbn [fst snd exec]. split; [|exact H2]. unfold restore. rewrite H1. cbn [option_map fst snd]. unfold get. cbn [entries]. destruct (find _ _) as [en|] eqn:FE; [rewrite WN; auto|exact H1].
  - rewrite RS. destruct (IH (SN _ _ AGE)) as [H1 H2]. cbn [fst snd exec]. split; [|exact Logic.I]. unfold restore. rewrite H1. exact H1.
Qed.
(** Every sequence of calls has such a record. *)
(** Switching the history on or off and pruning it always succeeds and never touches the clipboard. *)
Theorem C201_history_calls : forall e c k, (exists n age, k = EnableHistory n age) \/ In k [DisableHistory; ClearHistory; RemoveExpired] -> snd (fst (exec e c k)) = true /\ snd (exec e c k) = [].
Proof. intros e c k [(n & age & ->)|I]; [auto|]. cbn [In] in I. repeat destruct I as [<-|I]; auto. destruct I. Qed.
Theorem C201_total : forall l, exists s, recorded l s.
Proof.
  assert (AD : forall ps t, accepted ps t \/ ~ accepted ps t) by (intros ps t; destruct (fst (write_text ps t)) eqn:E; [left; apply accepted_ok; exact E|right; intros A; apply accepted_ok in A; congruence]).
  induction l as [|[e k] l [s IH]] using rev_ind; [exists None; constructor|].
  destruct k as [t|t|t|n age| | | |id].
  - destruct (AD (provs e) t) as [A|A]; eexists; [eapply RWrite; eauto|eapply RRefused; eauto].
  - destruct (AD (provs e) t) as [A|A]; eexists; [eapply RWrite; eauto|eapply RRefused; eauto].
  - destruct (AD (provs e) t) as [A|A]; eexists; [eapply RWrite; eauto|eapply RRefused; eauto].
  - eexists. eapply REnable; eauto.
  - eexists. eapply RDisable; eauto.
  - eexists. eapply RClear; eauto.
  - eexists. eapply RExpire; eauto.
  - destruct s as [[n es]|]; [|eexists; eapply RRestoreOff; eauto]. destruct (find (fun x => eid x =? id) (lastn n es)) as [en|] eqn:F; [destruct (AD (provs e) (econtent en)) as [A|A]|]; eexists; [eapply RRestore; eauto|apply RRestoreNot; eauto; intros en' F'; congruence|apply RRestoreNot; eauto; intros en' F'; congruence].
Qed.
Example C201_met : let p := [P true None true] in let e i := Env p (10 * i) i in
  let l := [(e 1, Write [65]); (e 2, EnableHistory 2 0); (e 3, Write [66]); (e 4, WriteHTML [67]); (Env [] 0 5, Write [68]); (e 6, WriteRTF [69]); (e 7, Restore 4); (e 8, Restore 3)] in
  (forall e n age, In (e, EnableHistory n age) l -> age <= 0) /\ option_map (fun h => map (fun x => (eid x, econtent x)) (entries h)) (hist (run (C None) l)) = Some [(6, [69]); (7, [67])].
Proof. cbv zeta. split; [|reflexivity]. intros e n age I. repeat (destruct I as [I|I]; [try discriminate; injection I as _ _ <-; lia|]). destruct I. Qed.

(* ---------- C202 ---------- *)
(** With distinct ids for the recorded entries (they are random UUIDs) GetHistoryEntry finds each listed entry, and nothing else. *)
Definition fresh_ids (l : list (env * call)) : Prop := NoDup (map (fun x => fresh (fst x)) l).
Theorem C202_lookup : forall l id, fresh_ids l -> let c := run (C None) l in
  (forall h e, hist c = Some h -> In e (entries h) -> history_entry c (eid e) = Some e) /\
  (forall e, history_entry c id = Some e -> eid e = id /\ exists h, hist c = Some h /\ In e (entries h)).
Proof.
  intros l id FI. cbv zeta. split.
  - assert (Q : forall h, hist (run (C None) l) = Some h -> NoDup (map eid (entries h)) /\ forall e, In e (entries h) -> In (eid e) (map (fun x => fresh (fst x)) l)).
    { revert FI. induction l as [|[e k] l IH] using rev_ind; intros FI h HH; [discriminate|].
      unfold fresh_ids in FI. rewrite map_app in FI. cbn [map fst] in FI. pose proof (NoDup_remove_1 _ _ _ FI) as FI1. pose proof (NoDup_remove_2 _ _ _ FI) as FI2. rewrite app_nil_r in FI1, FI2.
      specialize (IH FI1). unfold run in HH. rewrite fold_left_app in HH. fold (run (C None) l) in HH. cbn [fold_left fst snd] in HH. set (c := run (C None) l) in *. clearbody c.
      assert (IN : forall h', (forall x, In x (entries h') -> In (eid x) (map (fun x => fresh (fst x)) l)) -> forall x, In x (entries h') -> In (eid x) (map (fun x => fresh (fst x)) (l ++ [(e, k)]))) by (intros h' H x I; rewrite map_app; apply in_or_app; left; auto).
      assert (WA : forall m t, hist (fst (fst (write_as m e c t))) = Some h -> NoDup (map eid (entries h)) /\ forall x, In x (entries h) -> In (eid x) (map (fun x => fresh (fst x)) (l ++ [(e, k)]))).
      { intros m t W. unfold write_as in W. destruct (write_text (provs e) t) as [ok calls]. cbn [fst] in W. destruct ok; [|destruct (IH h W) as [I1 I2]; split; eauto]. destruct (hist c) as [h0|] eqn:EC; [|rewrite EC in W; discriminate]. cbn [hist] in W.
        destruct (IH h0 eq_refl) as [I1 I2]. destruct t as [|a t]; cbn [add] in W; [apply some_inj in W; subst h; split; eauto|]. apply some_inj in W. subst h. cbn [entries].
        assert (ND : NoDup (map eid (entries h0 ++ [E (fresh e) (a :: t) m (now e)]))).
        { rewrite map_app. cbn [map eid]. apply (Permutation_NoDup (Permutation_cons_append _ _)). constructor; [|exact I1]. intros J. apply in_map_iff in J as (x & X1 & X2). apply I2 in X2. rewrite X1 in X2. auto. }
        assert (IA : forall x, In x (entries h0 ++ [E (fresh e) (a :: t) m (now e)]) -> In (eid x) (map (fun x => fresh (fst x)) (l ++ [(e, k)]))).
        { intros x X. rewrite map_app. apply in_or_app. apply in_app_or in X as [X|[<-|[]]]; [left; auto|right; left; reflexivity]. }
        destruct (_ && _); [|split; auto]. destruct (entries h0 ++ [E (fresh e) (a :: t) m (now e)]) as [|y ys]; cbn [tl]; [split; [constructor|intros x []]|]. inversion ND; subst. split; [auto|]. intros x X. apply IA. right. auto. }
      destruct k as [t|t|t|n age| | | |i]; cbn [exec fst] in HH; try (apply (WA _ _ HH)).
      - cbn in HH. apply some_inj in HH. subst h. split; [constructor|intros x []].
      - discriminate.
      - cbn [hist] in HH. destruct (hist c) as [h0|]; [|discriminate]. cbn in HH. apply some_inj in HH. subst h. split; [constructor|intros x []].
      - cbn [hist] in HH. destruct (hist c) as [h0|]; [|discriminate]. cbn [option_map] in HH. apply some_inj in HH. subst h. destruct (IH h0 eq_refl) as [I1 I2]. unfold remove_expired. destruct (maxAge h0 <=? 0); cbn [fst entries]; [split; eauto|]. split.
        + revert I1. generalize (entries h0) as m. clear. induction m as [|x m IHm]; intros ND; [constructor|]. cbn [map] in ND. inversion ND as [|? ? N1 N2]; subst. cbn [filter]. destruct (negb _); [|auto]. cbn [map]. constructor; [|auto]. intros J. apply N1. apply in_map_iff in J as (y & Y1 & Y2). apply filter_In in Y2 as [Y2 _]. apply in_map_iff. eauto.
        + intros x X. apply filter_In in X as [X _]. rewrite map_app. apply in_or_app. left. auto.
      - unfold restore in HH. destruct (hist c) as [h0|] eqn:EC; [|cbn [fst] in HH; congruence]. destruct (get h0 i) as [en|]; [exact (WA _ _ HH)|]. cbn [fst] in HH. rewrite EC in HH. apply some_inj in HH. subst h. destruct (IH h0 eq_refl) as [I1 I2]. split; eauto. }
    intros h e HH IE. destruct (Q h HH) as [ND _]. unfold history_entry. rewrite HH. unfold get. revert ND IE. generalize (entries h) as m. clear. induction m as [|x m IH]; intros ND IE; [destruct IE|]. cbn [map] in ND. inversion ND as [|? ? N1 N2]; subst. cbn [find]. destruct IE as [->|IE]; [rewrite Z.eqb_refl; reflexivity|].
    destruct (eid x =? eid e) eqn:EQ; [|apply IH; auto]. exfalso. apply N1. apply in_map_iff. exists e. split; [lia|auto].
  - intros e HE. unfold history_entry in HE. destruct (hist (run (C None) l)) as [h|]; [|discriminate]. unfold get in HE. apply find_some in HE as [H1 H2]. split; [lia|eauto].
Qed.
Example C202_met : let l := [(Env [] 0 1, EnableHistory 0 0); (Env [P true None true] 5 2, Write [65]); (Env [P true None true] 6 3, Write [66])] in fresh_ids l /\ history_entry (run (C None) l) 2 = Some (E 2 [65] Plain 5).
Proof. cbv zeta. split; [unfold fresh_ids; cbn; repeat constructor; cbn; intuition lia|reflexivity]. Qed.

(* ---------- C203 ---------- *)
(** Entries past the age limit stay listed until RemoveExpiredHistory is called; writing does not remove them either. *)
Theorem C203_age_refuted : exists l t, let c := run (C None) l in hist c <> None /\ (forall e k, In (e, k) l -> now e <= t) /\ exists e, In e (match hist c with Some h => entries h | None => [] end) /\
  (match hist c with Some h => maxAge h | None => 0 end) = 10 /\ 10 < t - etime e.
Proof.
  exists [(Env [] 0 1, EnableHistory 5 10); (Env [P true None true] 5 2, Write [65]); (Env [P true None true] 100 3, Write [66])], 100. cbv zeta.
  split; [discriminate|]. split; [intros e k [I|[I|[I|[]]]]; injection I as <- <-; cbn; lia|]. exists (E 2 [65] Plain 5). split; [left; reflexivity|]. split; [reflexivity|cbn; lia].
Qed.
(** Right after RemoveExpiredHistory none is listed. *)
Theorem C203_age_partial : forall l e, let c := run (C None) (l ++ [(e, RemoveExpired)]) in forall h, hist c = Some h -> 0 < maxAge h -> forall x, In x (entries h) -> now e - etime x <= maxAge h.
Proof.
  intros l e c h HC A x X. subst c. unfold run in HC. rewrite fold_left_app in HC. cbn [fold_left fst snd exec hist] in HC. destruct (hist (fold_left _ l (C None))) as [h0|]; [|discriminate]. cbn [option_map] in HC. apply some_inj in HC. subst h.
  pose proof (C53_steps h0 0 (now e) [] Plain) as [_ Q]. destruct (Z.ltb_spec 0 (maxAge h0)) as [P|P].
  - specialize (Q P). destruct (remove_expired h0 (now e)) as [h1 k]. cbn [fst] in *. destruct Q as (Q1 & _ & _ & _ & Q2). rewrite Q2. apply Q1 in X. lia.
  - unfold remove_expired in *. replace (maxAge h0 <=? 0) with true in * by lia. cbn [fst] in A. lia.
Qed.

(* ---------- C204 ---------- *)
(** "No more than so many entries", however many: room for all of them is asked for at once, and for a large limit EnableHistory panics. *)
Theorem C204_limit_refuted : enable_panics (2 ^ 63 - 1) = true /\ enable_panics (2 ^ 45 + 1) = true.
Proof. split; reflexivity. Qed.
Theorem C204_limit_partial : forall n, enable_panics n = false <-> n <= 2 ^ 45.
Proof. intros n. unfold enable_panics. split; intros H; lia. Qed.

(* ---------- C207 ---------- *)
(** A failure can be reported for a sequence that was completely written, and whose flush failed. *)
Theorem C207_flush_refuted : exists w, wreach w /\ result w = Some false /\ sent w = true /\ fired w = false.
Proof.
  exists (W 2 None false (Some false) true false). split; [|repeat split].
  eapply WNext; [eapply WNext; [eapply WNext; [apply WInit|apply WWrite]|apply WSyncFail]|apply WDone].
Qed.
(** What a reported failure says: the time was up, or the write or the flush failed. *)
Theorem C207_failure_partial : forall w, wreach w -> result w = Some false -> fired w = true \/ (pc w = 2%nat /\ flushed w = false).
Proof.
  intros w R. enough ((chan w = Some false -> pc w = 2%nat /\ flushed w = false) /\ ((pc w < 2)%nat -> flushed w = false) /\ (result w = Some false -> fired w = true \/ (pc w = 2%nat /\ flushed w = false)) /\ (pc w <= 2)%nat) by tauto.
  induction R as [|a b R (I1 & I2 & I3 & I4) S]; [repeat split; intros; try discriminate; cbn; lia|].
  destruct S; cbn [chan result fired pc flushed] in *; repeat split; intros; try discriminate; try lia; auto.
  all: try (apply I2; lia); try (apply I1; congruence); try (destruct (I1 ltac:(eassumption)); lia).
  all: try (match goal with H : _ = Some false |- _ => destruct (I3 H) as [?|[? ?]]; [left; auto|lia] end).
  all: try (right; apply I1; congruence).
Qed.

(* ---------- C208 ---------- *)
(** Linux refuses to flush a terminal (fsync gives EINVAL), and OSC 52 is offered on terminals only: there no write is ever reported as a
    success, although the sequence was sent. *)
Definition linux_tty_step (a b : wstate) : Prop := wstep a b /\ (flushed b = true -> flushed a = true).
Inductive tty_reach : wstate -> Prop := TInit : tty_reach w0 | TNext a b : tty_reach a -> linux_tty_step a b -> tty_reach b.
Theorem C208_terminal_refuted : (forall w, tty_reach w -> result w <> Some true) /\ exists w, tty_reach w /\ sent w = true /\ pc w = 2%nat /\ fired w = false /\ result w = Some false.
Proof.
  split.
  - intros w R H. assert (F : forall w, tty_reach w -> wreach w /\ flushed w = false).
    { induction 1 as [|a b T [IH1 IH2] [S F]]; [split; [constructor|reflexivity]|]. split; [econstructor; eauto|]. destruct (flushed b); auto. rewrite F in IH2; auto. }
    destruct (F w R) as [R1 R2]. destruct (C122_success w R1 H). congruence.
  - exists (W 2 None false (Some false) true false). split; [|repeat split].
    eapply TNext; [eapply TNext; [eapply TNext; [apply TInit|]|]|]; (split; [|]); [apply WWrite|cbn; auto|apply WSyncFail|cbn; auto|apply WDone|cbn; auto].
Qed.
(** Where the output can be flushed, a complete write within the time is reported as a success. *)
Theorem C208_flushed_partial : forall w, wreach w -> flushed w = true -> fired w = false -> result w <> Some false.
Proof. intros w R F T H. destruct (C207_failure_partial w R H) as [?|[_ ?]]; congruence. Qed.
Example C208_met : exists w, wreach w /\ flushed w = true /\ fired w = false /\ result w = Some true.
Proof. exists (W 2 None false (Some true) true true). split; [|repeat split]. eapply WNext; [eapply WNext; [eapply WNext; [apply WInit|apply WWrite]|apply WSync]|apply WDone]. Qed.

(* ---------- C120: equal times ---------- *)
(** Whatever the times: a result of the sort exists, lists every entry once, never an older one before a newer one; GetRecentHistory gives the
    first of it, at most as many as asked for, and none of the others is newer. *)
Theorem C120_any_times : forall es, sorted_result es (isort es) /\ forall r k, sorted_result es r -> Permutation es r /\
  (forall i j x y, nth_error r i = Some x -> nth_error r j = Some y -> (i < j)%nat -> etime y <= etime x) /\
  (exists rest, r = recent r k ++ rest /\ forall x y, In x (recent r k) -> In y rest -> etime y <= etime x) /\ (0 < k -> Z.of_nat (length (recent r k)) = Z.min k (Z.of_nat (length es))).
Proof.
  assert (IS : forall e l, StronglySorted (fun x y => etime y <= etime x) l -> StronglySorted (fun x y => etime y <= etime x) (insert e l)).
  { intros e l0 S. induction S as [|x l1 S IH F]; [repeat constructor|]. cbn [insert]. destruct (etime x <? etime e) eqn:E.
    - constructor; [constructor; auto|]. constructor; [lia|]. rewrite Forall_forall in *. intros y Y. specialize (F y Y). lia.
    - constructor; [auto|]. assert (G : forall y, In y (insert e l1) -> y = e \/ In y l1). { clear. induction l1 as [|z l1 IH]; cbn [insert]; intros y Y; [destruct Y as [<-|[]]; auto|]. destruct (etime z <? etime e); [destruct Y as [<-|Y]; auto|]. destruct Y as [<-|Y]; [right; left; auto|]. destruct (IH y Y); auto. right. right. auto. }
      rewrite Forall_forall in *. intros y Y. destruct (G y Y) as [->|Y2]; [lia|auto]. }
  assert (SS : forall l, StronglySorted (fun x y => etime y <= etime x) (isort l)).
  { intros l. unfold isort. assert (G : forall l a, StronglySorted (fun x y => etime y <= etime x) a -> StronglySorted (fun x y => etime y <= etime x) (fold_left (fun a e => insert e a) l a)) by (induction l0 as [|e l0 IH]; intros a A; cbn [fold_left]; auto). apply G. constructor. }
  intros es. split; [split; [apply isort_perm|split; [apply SS|auto]]|].
  intros r k (P & SO & _). split; [exact P|].
  assert (SP : forall a b, r = a ++ b -> forall x y, In x a -> In y b -> etime y <= etime x).
  { intros a b E. rewrite E in SO. clear E P r. induction a as [|z a IH]; intros x y X Y; [destruct X|]. cbn [app] in SO. inversion_clear SO as [|? ? S1 S2]. destruct X as [->|X]; [|apply IH; auto]. rewrite Forall_forall in S2. apply S2. apply in_or_app. auto. }
  split; [|split].
  - intros i j x y X Y L. apply (SP (firstn (S i) r) (skipn (S i) r) ltac:(symmetry; apply firstn_skipn)).
    + apply nth_error_In with (n := i). rewrite nth_error_firstn. replace (i <? S i)%nat with true by (symmetry; apply Nat.ltb_lt; lia). exact X.
    + apply nth_error_In with (n := (j - S i)%nat). rewrite nth_error_skipn. replace (S i + (j - S i))%nat with j by lia. exact Y.
  - unfold recent. destruct (k <=? 0); [exists []; rewrite app_nil_r; split; [reflexivity|intros x y _ []]|]. exists (skipn (Z.to_nat k) r). split; [symmetry; apply firstn_skipn|]. intros x y X Y. apply (SP (firstn (Z.to_nat k) r) (skipn (Z.to_nat k) r)); auto. symmetry. apply firstn_skipn.
  - intros K. unfold recent. replace (k <=? 0) with false by lia. rewrite firstn_length. apply Permutation_length in P. rewrite P. lia.
Qed.

(* ---------- C289 ---------- *)
(** macOS: the provider is available exactly when both tools are there, and then a text written is read back byte for byte. *)
Theorem C289_mac : forall c p cok pok store, let v := mac_native c p cok pok store in
  (available v = true <-> c = true /\ p = true) /\
  (available v = true -> writes v = cok /\ (pok = true -> forall t, t <> [] -> reads (mac_native c p cok pok t) = Some (t, Plain))) /\
  (forall d m, reads v = Some (d, m) -> d = store /\ d <> [] /\ m = Plain).
Proof.
  intros c p cok pok store v. subst v. split; [|split].
  - destruct c, p; cbn; intuition congruence.
  - destruct c, p; cbn; try discriminate. intros _. split; [reflexivity|]. intros -> t Ht. destruct t; [congruence|reflexivity].
  - intros d m. cbn [mac_native reads]. destruct (p && pok); [|discriminate]. destruct store; [discriminate|]. intros [= <- <-]. repeat split. discriminate.
Qed.
Example C289_met : reads (mac_native true true true true [104; 105]) = Some ([104; 105], Plain). Proof. reflexivity. Qed.

Print Assumptions C196_builder. Print Assumptions C209_zero_builder_refuted. Print Assumptions C209_zero_builder_partial. Print Assumptions C197_new.
Print Assumptions C198_linux. Print Assumptions C199_usable_tool_refuted. Print Assumptions C199_usable_tool_partial. Print Assumptions C200_fallback_refuted.
Print Assumptions C200_fallback_partial. Print Assumptions C201_history. Print Assumptions C201_history_calls. Print Assumptions C201_total.
Print Assumptions C202_lookup. Print Assumptions C203_age_refuted. Print Assumptions C203_age_partial. Print Assumptions C204_limit_refuted.
Print Assumptions C204_limit_partial. Print Assumptions C207_flush_refuted. Print Assumptions C207_failure_partial. Print Assumptions C208_terminal_refuted.
Print Assumptions C208_flushed_partial. Print Assumptions C120_any_times. Print Assumptions C289_mac.
