(** The Windows clipboard: what is written, what is read, and what goes wrong. *)
From Verif Require Import Prelude Utf8 CwModel.
From Verif Require TmModel.

(* ---------- Specification ---------- *)

Definition high (u : Z) : Prop := 55296 <= u < 56320.
Definition low (u : Z) : Prop := 56320 <= u < 57344.
(** UTF-16 (Unicode standard, D91): the units of a text. *)
Inductive utf16 : list Z -> list Z -> Prop :=
| U_nil : utf16 [] []
| U_one c cs us : scalar c -> c < 65536 -> utf16 cs us -> utf16 (c :: cs) (c :: us)
| U_two c cs us h l : high h -> low l -> c = 65536 + (h - 55296) * 1024 + (l - 56320) -> utf16 cs us -> utf16 (c :: cs) (h :: l :: us).
(** What a reader shows for any units: an unpaired surrogate stands for U+FFFD. *)
Inductive shown : list Z -> list Z -> Prop :=
| S_nil : shown [] []
| S_one c cs us : scalar c -> c < 65536 -> shown cs us -> shown (c :: cs) (c :: us)
| S_two c cs us h l : high h -> low l -> c = 65536 + (h - 55296) * 1024 + (l - 56320) -> shown cs us -> shown (c :: cs) (h :: l :: us)
| S_lone cs us u : high u \/ low u -> ~ (high u /\ exists l r, us = l :: r /\ low l) -> shown cs us -> shown (65533 :: cs) (u :: us).

(** The state before a call: closed, with the given contents. *)
Definition idle (c : option (list Z)) (n : Z) (o : list bool) : st := St c false n o.
(** Memory after every Go slice is readable (any contents). *)
Definition readable (adj : nat -> option Z) : Prop := forall i, adj i <> None.

(* ---------- Proofs ---------- *)

Lemma scalar_split c : scalar c -> 65536 <= c -> high (55296 + Z.shiftr (c - 65536) 10) /\ low (56320 + Z.land (c - 65536) 1023) /\
  c = 65536 + (55296 + Z.shiftr (c - 65536) 10 - 55296) * 1024 + (56320 + Z.land (c - 65536) 1023 - 56320).
Proof.
  intros [H|H] G; [lia|]. change 1023 with (Z.ones 10). rewrite Z.land_ones by lia. rewrite Z.shiftr_div_pow2 by lia. change (2 ^ 10) with 1024. unfold high, low.
  pose proof (Z.div_mod (c - 65536) 1024 ltac:(lia)) as D. pose proof (Z.mod_pos_bound (c - 65536) 1024 ltac:(lia)) as M.
  assert (0 <= (c - 65536) / 1024 < 1024) by (split; [apply Z.div_pos; lia|apply Z.div_lt_upper_bound; lia]). lia.
Qed.
Lemma pair_value h l : high h -> low l -> Z.lor (Z.shiftl (h - 55296) 10) (l - 56320) + 65536 = 65536 + (h - 55296) * 1024 + (l - 56320).
Proof.
  unfold high, low. intros H L. rewrite Z.shiftl_mul_pow2 by lia. change (2 ^ 10) with 1024.
  enough (E : Z.land ((h - 55296) * 1024) (l - 56320) = 0) by (rewrite <- Z.lxor_lor by exact E; rewrite <- Z.add_nocarry_lxor by exact E; lia).
  apply Z.bits_inj'. intros n N. rewrite Z.land_spec, Z.bits_0. change 1024 with (2 ^ 10). rewrite Z.mul_pow2_bits by lia.
  destruct (Z.lt_ge_cases n 10) as [A|A]; [rewrite Z.testbit_neg_r by lia; reflexivity|].
  replace (l - 56320) with ((l - 56320) mod 2 ^ 10) by (apply Z.mod_small; change (2 ^ 10) with 1024; lia). rewrite Z.mod_pow2_bits_high by lia. apply andb_false_r.
Qed.
Lemma utf16_units cs : Forall scalar cs -> utf16 cs (flat_map units_of_rune cs).
Proof.
  induction 1 as [|c cs S _ IH]; [constructor|]. cbn [flat_map]. unfold units_of_rune at 1. destruct (c <? 65536) eqn:E.
  - cbn [app]. constructor; auto. lia.
  - cbv zeta. cbn [app]. destruct (scalar_split c S) as (H & L & V); [lia|]. eapply U_two; eauto.
Qed.
Lemma units_len cs : Forall scalar cs -> (length (flat_map units_of_rune cs) <= length (enc cs))%nat /\
  ((exists c, In c cs /\ 128 <= c) -> (length (flat_map units_of_rune cs) < length (enc cs))%nat) /\
  ((forall c, In c cs -> c < 128) -> length (flat_map units_of_rune cs) = length (enc cs)).
Proof.
  intros F. assert (K : forall c, scalar c -> (length (units_of_rune c) <= length (enc_rune c))%nat /\ (128 <= c -> (length (units_of_rune c) < length (enc_rune c))%nat) /\ (c < 128 -> length (units_of_rune c) = length (enc_rune c))).
  { intros c S. assert (D : c < 128 \/ 128 <= c < 2048 \/ 2048 <= c < 65536 \/ 65536 <= c) by lia. unfold units_of_rune, enc_rune. destruct D as [D|[D|[D|D]]].
    - replace (c <? 65536) with true by lia. replace (c <? 128) with true by lia. cbn [length]. lia.
    - replace (c <? 65536) with true by lia. replace (c <? 128) with false by lia. replace (c <? 2048) with true by lia. cbn [length]. lia.
    - replace (c <? 65536) with true by lia. replace (c <? 128) with false by lia. replace (c <? 2048) with false by lia. cbn [length]. lia.
    - replace (c <? 65536) with false by lia. replace (c <? 128) with false by lia. replace (c <? 2048) with false by lia. cbn [length]. lia. }
  unfold enc. induction F as [|c cs S F IH]; [cbn; repeat split; auto; intros (c & [] & _)|]. cbn [flat_map]. rewrite !app_length. destruct IH as (I1 & I2 & I3). destruct (K c S) as (K1 & K2 & K3). repeat split.
  - lia.
  - intros (d & [->|D] & G); [specialize (K2 G); lia|]. assert (length (flat_map units_of_rune cs) < length (flat_map enc_rune cs))%nat by (apply I2; exists d; auto). lia.
  - intros G. rewrite K3, I3; auto; [intros; apply G; now right|apply G; now left].
Qed.

Lemma shown_of_utf16 cs us : utf16 cs us -> shown cs us.
Proof. induction 1; [constructor|constructor; auto|eapply S_two; eauto]. Qed.
Lemma shown_scalar cs us : shown cs us -> Forall scalar cs.
Proof. induction 1; constructor; auto; unfold scalar, high, low in *; lia. Qed.
Lemma shown_runes cs us : shown cs us -> forall fuel, (length us <= fuel)%nat -> string_of_runes (runes16 fuel us) = enc cs.
Proof.
  induction 1 as [|c cs us S L H IH|c cs us h l Hh Hl -> H IH|cs us u K N H IH]; intros fuel F; [destruct fuel; reflexivity| | |]; (destruct fuel as [|fuel]; [cbn in F; lia|]); cbn [length] in F.
  - cbn [runes16]. unfold scalar in S. replace ((55296 <=? c) && (c <? 56320)) with false by lia. unfold string_of_runes, enc in *. cbn [flat_map]. fold (enc cs) in *. rewrite IH by lia.
    rewrite (proj2 (scalarb_spec c)) by exact S. reflexivity.
  - cbn [runes16]. unfold high, low in *. replace ((55296 <=? h) && (h <? 56320)) with true by lia. replace ((56320 <=? l) && (l <? 57344)) with true by lia. rewrite pair_value by assumption.
    unfold string_of_runes in *. unfold enc. cbn [flat_map]. fold (enc cs). rewrite IH by lia. rewrite (proj2 (scalarb_spec _)); [reflexivity|]. right. lia.
  - unfold high, low in *. assert (E : runes16 (S fuel) (u :: us) = u :: runes16 fuel us).
    { cbn [runes16]. destruct ((55296 <=? u) && (u <? 56320)) eqn:E; [|reflexivity]. destruct us as [|l r]; [reflexivity|]. destruct ((56320 <=? l) && (l <? 57344)) eqn:E2; [|reflexivity].
      exfalso. apply N. split; [lia|]. exists l, r. split; [reflexivity|lia]. }
    rewrite E. unfold string_of_runes in *. cbn [flat_map]. unfold enc. cbn [flat_map]. fold (enc cs). rewrite IH by lia. replace (scalarb u) with false; [reflexivity|]. unfold scalarb. lia.
Qed.
Lemma before0_app us r : ~ In 0 us -> before0 (us ++ 0 :: r) = Some us.
Proof. induction us as [|u us IH]; intros N; [reflexivity|]. cbn [app before0]. replace (u =? 0) with false by (cbn in N; lia). rewrite IH; [reflexivity|]. intros X. apply N. now right. Qed.
Lemma utf16_no0 cs us : utf16 cs us -> ~ In 0 cs -> ~ In 0 us.
Proof.
  induction 1 as [|c cs us S L H IH|c cs us h l Hh Hl E H IH]; intros N X; [exact X| |]; unfold high, low in *.
  - destruct X as [X|X]; [apply N; now left|]. apply IH; [intros Y; apply N; now right|exact X].
  - destruct X as [X|[X|X]]; [lia|lia|]. apply IH; [intros Y; apply N; now right|exact X].
Qed.

Section Memory.
Variable adj : nat -> option Z.
Notation Write := (Write adj).

Lemma copy_ok src : forall k n, (n <= length src)%nat -> copyMemory adj src k n = Some (firstn n src).
Proof using. induction src as [|u r IH]; intros k [|n] H; cbn in *; try reflexivity; [lia|]. now rewrite IH by lia. Qed.
Lemma copy_over : readable adj -> forall n k, exists l, copyMemory adj [] k n = Some l /\ length l = n.
Proof using.
  intros R. induction n as [|n IH]; intros k; [exists []; auto|]. cbn. destruct (adj k) as [u|] eqn:E; [|destruct (R k E)]. destruct (IH (S k)) as (l & -> & L). exists (u :: l). cbn. auto.
Qed.
Lemma copy_any src : readable adj -> forall n k, (length src <= n)%nat -> exists l, copyMemory adj src k n = Some (src ++ l) /\ length l = (n - length src)%nat.
Proof using.
  intros R. induction src as [|u r IH]; intros n k H; [destruct (copy_over R n k) as (l & E & L); exists l; rewrite E; cbn [app length]; split; [reflexivity|lia]|].
  destruct n as [|n]; [cbn in H; lia|]. cbn [copyMemory]. destruct (IH n k) as (l & E & L); [cbn in H; lia|]. exists l. rewrite E. split; [reflexivity|]. cbn. exact L.
Qed.
Lemma ask_nil : TmModel.ask [] = (true, []).
Proof using. reflexivity. Qed.
Lemma write_block t c n block : copyMemory adj (stringToUTF16 t) 0 (length t + 1) = Some block -> Write t (idle c n []) = (Ok tt, idle (Some block) n []).
Proof using.
  intros E. unfold CwModel.Write, fails, idle, own, set_open, set_clip. cbn [orc clip opened owned]. rewrite ask_nil. cbn [negb orc clip opened owned]. rewrite ask_nil. cbn [negb]. rewrite E.
  cbn [negb orc clip opened owned]. do 4 (cbn [TmModel.ask negb orc clip opened owned]). replace (n + 1 + -1) with n by lia. reflexivity.
Qed.
Lemma write_text cs c n : Forall scalar cs -> readable adj ->
  exists rest, Write (enc cs) (idle c n []) = (Ok tt, idle (Some (flat_map units_of_rune cs ++ 0 :: rest)) n []).
Proof using.
  intros F R. destruct (units_len cs F) as (L & _). unfold stringToUTF16.
  destruct (copy_any (stringToUTF16 (enc cs)) R (length (enc cs) + 1) 0) as (l & E & _).
  { unfold stringToUTF16. rewrite runes_of_enc by exact F. rewrite app_length. cbn. lia. }
  exists l. rewrite (write_block (enc cs) c n _ E). unfold stringToUTF16. rewrite runes_of_enc by exact F. rewrite <- app_assoc. reflexivity.
Qed.

(* ---------- C242 ---------- *)

(** Writing a text puts it on the clipboard as UTF-16, ended by a 0. *)
Theorem C242_write : forall cs c n, Forall scalar cs -> readable adj ->
  exists us rest, utf16 cs us /\ Write (enc cs) (idle c n []) = (Ok tt, idle (Some (us ++ 0 :: rest)) n []).
Proof using.
  intros cs c n F R. destruct (write_text cs c n F R) as (rest & E). exists (flat_map units_of_rune cs), rest. split; [now apply utf16_units|exact E].
Qed.
(** Reading gives the text up to the 0; unpaired surrogates as U+FFFD. *)
Theorem C242_read : forall cs us rest n, shown cs us -> ~ In 0 us -> us <> [] -> Read (idle (Some (us ++ 0 :: rest)) n []) = (Ok (enc cs), idle (Some (us ++ 0 :: rest)) n []).
Proof using.
  clear adj. intros cs us rest n S N E. unfold Read, fails, idle, set_open. cbn [orc clip opened owned]. rewrite !ask_nil. cbn [negb orc clip opened owned]. rewrite !ask_nil. cbn [negb orc clip opened owned].
  unfold utf16ToString. rewrite before0_app by exact N. rewrite (shown_runes cs us S) by lia.
  destruct (enc cs) as [|b t] eqn:Q; [|reflexivity]. exfalso. inversion S; subst; try congruence; unfold enc in Q; cbn [flat_map] in Q; apply app_eq_nil in Q as [Q _]; revert Q; apply enc_rune_ne.
Qed.
(** Every block of units ended by a 0 is read (there is such a text). *)
Theorem C242_shown_total : forall us, Forall (fun u => 0 <= u < 65536) us -> exists cs, shown cs us.
Proof using.
  clear adj. intros us. remember (length us) as n eqn:L. revert us L. induction n as [n IH] using lt_wf_ind. intros us L F. destruct us as [|u us]; [exists []; constructor|]. inversion F as [|? ? U F2]; subst.
  destruct (IH (length us) ltac:(cbn; lia) us eq_refl F2) as (cs & S).
  assert (D : (0 <= u < 55296 \/ 57344 <= u < 65536) \/ high u \/ low u) by (unfold high, low; lia). destruct D as [D|D]; [exists (u :: cs); constructor; auto; [unfold scalar; lia|lia]|].
  destruct us as [|l r].
  - exists (65533 :: cs). apply S_lone; auto. intros (_ & l & r & E & _). discriminate.
  - assert (G : (high u /\ low l) \/ ~ (high u /\ low l)) by (unfold high, low; lia). destruct G as [(G1 & G2)|G].
    + inversion F2 as [|? ? _ F3]; subst. destruct (IH (length r) ltac:(cbn; lia) r eq_refl F3) as (cs2 & S2). eexists. eapply S_two; eauto.
    + exists (65533 :: cs). apply S_lone; auto. intros (H1 & l2 & r2 & E & H2). injection E as -> ->. tauto.
Qed.
(** Hence what was written is read back. *)
Theorem C242_round_trip : forall cs c n, Forall scalar cs -> ~ In 0 cs -> cs <> [] -> readable adj ->
  exists s, Write (enc cs) (idle c n []) = (Ok tt, s) /\ fst (Read s) = Ok (enc cs).
Proof using.
  intros cs c n F N E R. destruct (C242_write cs c n F R) as (us & rest & U & W). eexists. split; [exact W|]. rewrite (C242_read cs us rest n); [reflexivity|now apply shown_of_utf16|now apply (utf16_no0 cs)|].
  intros ->. inversion U. congruence.
Qed.
(** Whatever fails, the clipboard is not left open, and a reader changes nothing. *)
Theorem C242_closed : forall t c n o, opened (snd (Write t (idle c n o))) = false /\
  opened (snd (Read (idle c n o))) = false /\ clip (snd (Read (idle c n o))) = c /\ owned (snd (Read (idle c n o))) = n.
Proof using.
  intros t c n o. split.
  - unfold CwModel.Write, fails, idle, own, set_open, set_clip. cbn [orc clip opened owned]. destruct (TmModel.ask o) as [[|] o1]; cbn [negb orc clip opened owned]; [|reflexivity].
    destruct (TmModel.ask o1) as [[|] o2]; cbn [negb orc clip opened owned snd]; [|reflexivity]. destruct (copyMemory adj (stringToUTF16 t) 0 (length t + 1)) as [block|]; [|reflexivity].
    destruct (TmModel.ask o2) as [[|] o3]; cbn [negb orc clip opened owned snd]; [|reflexivity]. destruct (TmModel.ask o3) as [[|] o4]; cbn [negb orc clip opened owned snd]; [|reflexivity].
    destruct (TmModel.ask o4) as [[|] o5]; reflexivity.
  - clear adj. unfold Read, fails, idle, set_open. cbn [orc clip opened owned]. destruct (TmModel.ask o) as [[|] o1]; cbn [negb orc clip opened owned]; [|auto].
    destruct (TmModel.ask o1) as [[|] o2]; destruct c as [b|]; cbn [negb orc clip opened owned snd]; try (now auto).
    destruct (TmModel.ask o2) as [[|] o3]; cbn [negb orc clip opened owned snd]; [|auto]. destruct (utf16ToString b) as [[|]|]; cbn; auto.
Qed.

(* ---------- C243 ---------- *)

(** ASCII text: only the memory of the text itself is read; nothing depends on what lies behind it. *)
Theorem C243_ascii_partial : forall cs c n o, Forall scalar cs -> (forall x, In x cs -> x < 128) -> forall adj2,
  Write (enc cs) (idle c n o) = CwModel.Write adj2 (enc cs) (idle c n o) /\ fst (Write (enc cs) (idle c n o)) <> Fault.
Proof using.
  intros cs c n o F A adj2. destruct (units_len cs F) as (_ & _ & L). specialize (L A).
  assert (E : forall a, copyMemory a (stringToUTF16 (enc cs)) 0 (length (enc cs) + 1) = Some (stringToUTF16 (enc cs))).
  { intros a. assert (Q : (length (enc cs) + 1)%nat = length (stringToUTF16 (enc cs))) by (unfold stringToUTF16; rewrite runes_of_enc by exact F; rewrite app_length; cbn; lia).
    rewrite Q. clear - adj. generalize (stringToUTF16 (enc cs)). intros src. generalize 0%nat. induction src as [|u r IH]; intros k; cbn; [reflexivity|]. now rewrite IH. }
  unfold CwModel.Write. rewrite !E. split; [reflexivity|]. unfold fails, idle, own, set_open, set_clip. cbn [orc clip opened owned]. destruct (TmModel.ask o) as [[|] o1]; cbn [negb orc clip opened owned fst]; [|discriminate].
  destruct (TmModel.ask o1) as [[|] o2]; cbn [negb orc clip opened owned fst]; [|discriminate].
  destruct (TmModel.ask o2) as [[|] o3]; cbn [negb orc clip opened owned fst]; [|discriminate]. destruct (TmModel.ask o3) as [[|] o4]; cbn [negb orc clip opened owned fst]; [|discriminate].
  destruct (TmModel.ask o4) as [[|] o5]; discriminate.
Qed.
End Memory.

(** Any text with a character beyond ASCII: memory behind the text is read; the process crashes if it is not readable, ... *)
Theorem C243_fault_refuted : forall cs c n, Forall scalar cs -> (exists x, In x cs /\ 128 <= x) -> fst (Write (fun _ => None) (enc cs) (idle c n [])) = Fault.
Proof.
  intros cs c n F A. destruct (units_len cs F) as (_ & L & _). specialize (L A).
  assert (E : copyMemory (fun _ => None) (stringToUTF16 (enc cs)) 0 (length (enc cs) + 1) = None).
  { unfold stringToUTF16. rewrite runes_of_enc by exact F. assert (Q : (length (flat_map units_of_rune cs ++ [0%Z]) < length (enc cs) + 1)%nat) by (rewrite app_length; cbn; lia). revert Q. clear.
    generalize (flat_map units_of_rune cs ++ [0%Z]). generalize (length (enc cs) + 1)%nat. intros n src. revert n. generalize 0%nat. induction src as [|u r IH]; intros k [|n] Q; cbn in *; try lia; [reflexivity|]. now rewrite IH by lia. }
  unfold Write, fails, idle, own. cbn [orc clip opened owned]. rewrite ask_nil. cbn [negb orc clip opened owned]. rewrite ask_nil. cbn [negb]. now rewrite E.
Qed.
(** ... and otherwise foreign memory ends up on the clipboard, behind the 0. *)
Theorem C243_leak_refuted : forall cs c n v, Forall scalar cs -> (exists x, In x cs /\ 128 <= x) ->
  exists us rest, utf16 cs us /\ Write (fun _ => Some v) (enc cs) (idle c n []) = (Ok tt, idle (Some (us ++ 0 :: v :: rest)) n []).
Proof.
  intros cs c n v F A. destruct (units_len cs F) as (_ & L & _). specialize (L A). exists (flat_map units_of_rune cs), (repeat v (length (enc cs) - length (flat_map units_of_rune cs) - 1)).
  split; [now apply utf16_units|]. apply write_block. unfold stringToUTF16. rewrite runes_of_enc by exact F.
  replace (length (enc cs) + 1)%nat with (length (flat_map units_of_rune cs ++ [0%Z]) + S (length (enc cs) - length (flat_map units_of_rune cs) - 1))%nat by (rewrite app_length; cbn; lia).
  generalize (length (enc cs) - length (flat_map units_of_rune cs) - 1)%nat. intros m. change (flat_map units_of_rune cs ++ 0 :: v :: repeat v m) with (flat_map units_of_rune cs ++ [0] ++ repeat v (S m)). rewrite app_assoc.
  generalize (flat_map units_of_rune cs ++ [0%Z]). generalize 0%nat. generalize (S m). clear. intros m k src. revert k. induction src as [|u r IH]; intros k; cbn [app length Nat.add copyMemory]; [|now rewrite IH].
  revert k. induction m as [|m IH]; intros k; [reflexivity|]. cbn. now rewrite IH.
Qed.

(* ---------- C244 ---------- *)

(** A failure before the clipboard is opened changes nothing (up to the oracle). *)
Theorem C280_early : forall adj t c n o, readable adj -> In false (firstn 3 o) -> let (r, s) := Write adj t (idle c n o) in r = Err /\ clip s = c /\ owned s = n.
Proof.
  intros adj t c n o R I. unfold Write, fails, idle, own, set_open, set_clip. cbn [orc clip opened owned].
  assert (K : copyMemory adj (stringToUTF16 t) 0 (length t + 1) <> None).
  { revert R. clear. intros R. generalize (stringToUTF16 t), 0%nat, (length t + 1)%nat. induction l as [|u r IH]; intros k m.
    - destruct (copy_over adj R m k) as (l & -> & _). discriminate.
    - destruct m as [|m]; [discriminate|]. cbn. specialize (IH k m). destruct (copyMemory adj r k m); congruence. }
  destruct o as [|[|] o]; cbn in I; [tauto| |cbn; auto]. destruct o as [|[|] o]; cbn in I; [destruct I as [|[]]; discriminate| |cbn; repeat split; lia].
  destruct o as [|[|] o]; cbn in I; [destruct I as [|[|[]]]; discriminate|destruct I as [|[|[|[]]]]; discriminate|]. cbn [TmModel.ask negb orc clip opened owned].
  destruct (copyMemory adj (stringToUTF16 t) 0 (length t + 1)); [|congruence]. cbn. repeat split; lia.
Qed.
(** If emptying fails the memory is never freed; if setting fails, the previous contents are lost as well. *)
Theorem C244_leak_refuted : forall adj t c n o, readable adj -> let (r, s) := Write adj t (idle c n (true :: true :: true :: false :: o)) in r = Err /\ clip s = c /\ owned s = n + 1.
Proof.
  intros adj t c n o R. unfold Write, fails, idle, own, set_open, set_clip. cbn [TmModel.ask orc clip opened owned negb].
  destruct (copyMemory adj (stringToUTF16 t) 0 (length t + 1)) as [b|] eqn:E; [cbn; auto|]. exfalso. revert R E. clear. intros R. generalize (stringToUTF16 t), 0%nat, (length t + 1)%nat. induction l as [|u r IH]; intros k m.
  - destruct (copy_over adj R m k) as (l & -> & _). discriminate.
  - destruct m as [|m]; [discriminate|]. cbn. specialize (IH k m). destruct (copyMemory adj r k m); congruence.
Qed.
Theorem C244_lost_refuted : forall adj t c n o, readable adj -> let (r, s) := Write adj t (idle c n (true :: true :: true :: true :: false :: o)) in r = Err /\ clip s = None /\ owned s = n + 1.
Proof.
  intros adj t c n o R. unfold Write, fails, idle, own, set_open, set_clip. cbn [TmModel.ask orc clip opened owned negb].
  destruct (copyMemory adj (stringToUTF16 t) 0 (length t + 1)) as [b|] eqn:E; [cbn; auto|]. exfalso. revert R E. clear. intros R. generalize (stringToUTF16 t), 0%nat, (length t + 1)%nat. induction l as [|u r IH]; intros k m.
  - destruct (copy_over adj R m k) as (l & -> & _). discriminate.
  - destruct m as [|m]; [discriminate|]. cbn. specialize (IH k m). destruct (copyMemory adj r k m); congruence.
Qed.

(* ---------- C245 ---------- *)

(** A text with a NUL is written without an error and read back cut at the NUL. *)
Theorem C245_nul_refuted : forall adj cs1 cs2 c n, readable adj -> Forall scalar cs1 -> Forall scalar cs2 -> ~ In 0 cs1 -> cs1 <> [] ->
  exists s, Write adj (enc (cs1 ++ 0 :: cs2)) (idle c n []) = (Ok tt, s) /\ fst (Read s) = Ok (enc cs1).
Proof.
  intros adj cs1 cs2 c n R F1 F2 N E. destruct (write_text adj (cs1 ++ 0 :: cs2) c n) as (rest & W); [apply Forall_app; split; auto; constructor; auto; left; lia|exact R|].
  eexists. split; [exact W|]. rewrite flat_map_app. cbn [flat_map]. change (units_of_rune 0) with [0]. rewrite <- app_assoc. cbn [app].
  rewrite (C242_read cs1); [reflexivity|now apply shown_of_utf16, utf16_units|apply (utf16_no0 cs1); [now apply utf16_units|exact N]|].
  pose proof (utf16_units cs1 F1) as U. intros Q. rewrite Q in U. inversion U. congruence.
Qed.

(* ---------- Examples ---------- *)

(** "aé€😀" *)
Definition ex_text : list Z := [97; 233; 8364; 128512].
Example C242_inhabited : Forall scalar ex_text /\ ~ In 0 ex_text /\ ex_text <> [] /\ readable (fun _ => Some 7) /\ (exists x, In x ex_text /\ 128 <= x) /\
  Write (fun _ => Some 7) (enc ex_text) (idle None 0 []) = (Ok tt, idle (Some [97; 233; 8364; 55357; 56832; 0; 7; 7; 7; 7; 7]) 0 []).
Proof. unfold ex_text. split; [repeat constructor; unfold scalar; lia|]. split; [cbn; lia|]. split; [discriminate|]. split; [discriminate|]. split; [exists 233; cbn; lia|]. vm_compute. reflexivity. Qed.
Example C242_lone_inhabited : shown [97; 65533; 98] [97; 55357; 98] /\ fst (Read (idle (Some [97; 55357; 98; 0]) 0 [])) = Ok [97; 239; 191; 189; 98].
Proof.
  split; [|vm_compute; reflexivity]. apply S_one; [unfold scalar; lia|lia|]. apply S_lone; [unfold high; lia| |apply S_one; [unfold scalar; lia|lia|constructor]].
  intros (_ & l & r & E & H). injection E as <- _. unfold low in H. lia.
Qed.
Example C243_ascii_inhabited : Forall scalar [72; 105] /\ (forall x, In x [72; 105] -> x < 128) /\ fst (Write (fun _ => None) (enc [72; 105]) (idle None 0 [])) = Ok tt.
Proof. split; [repeat constructor; unfold scalar; lia|]. split; [cbn; lia|]. vm_compute. reflexivity. Qed.

Print Assumptions C242_write. Print Assumptions C242_read. Print Assumptions C242_shown_total. Print Assumptions C242_round_trip.
Print Assumptions C242_closed. Print Assumptions C243_ascii_partial. Print Assumptions C243_fault_refuted. Print Assumptions C243_leak_refuted.
Print Assumptions C280_early. Print Assumptions C244_leak_refuted. Print Assumptions C244_lost_refuted. Print Assumptions C245_nul_refuted.
