(** C258, C259: the console's input mode around external commands (Windows). *)
From Verif Require Import Prelude WcModel XwModel.

(** Start in mode [m], enter raw mode, run [n] external commands, leave raw mode: the final input mode. *)
Fixpoint execs (n : nat) (s : st) : st := match n with O => s | S k => execs k (snd (exec_tty s)) end.
Definition final_mode (b : buf) (m : Z) (n : nat) : Z :=
  imode (device (snd (ExitRawMode (execs n (snd (EnterRawMode (start b m [])))))))%Z.

Lemma exec_raw c sv bs ac i : inRaw c = true ->
  exec_tty (St c sv (Dev bs ac i) []) =
  (Some (Z.ldiff (omode c) 512), St (Con (out c) (orig c) (alt c) (inAlt c) true (Z.ldiff (omode c) 512)) sv (Dev bs ac (raw_mode (Z.ldiff (omode c) 512))) []).
Proof. intros H. unfold exec_tty, bind, get. cbn [obj]. rewrite H. unfold ExitRawMode, bind, get. cbn [obj]. rewrite H. reflexivity. Qed.

(** The child process finds the program's original mode, without VT input. *)
Theorem C258_child_mode : forall b m, fst (exec_tty (snd (EnterRawMode (start b m [])))) = Some (Z.ldiff m 512).
Proof. reflexivity. Qed.
(** Afterwards the program is in raw mode again. *)
Theorem C258_raw_again : forall c sv bs ac i, inRaw c = true -> let s := snd (exec_tty (St c sv (Dev bs ac i) [])) in
  inRaw (obj s) = true /\ Z.land (imode (device s)) 7 = 0 /\ Z.testbit (imode (device s)) 9 = true.
Proof.
  intros c sv bs ac i H s. unfold s. rewrite exec_raw by exact H. cbn [snd obj inRaw device imode]. split; [reflexivity|].
  generalize (Z.ldiff (omode c) 512); intros z. unfold raw_mode. split.
  - apply Z.bits_inj'. intros k Hk. rewrite Z.bits_0, Z.land_spec, Z.lor_spec, Z.ldiff_spec.
    destruct (Z_lt_le_dec k 3) as [Lt|Ge].
    + assert (E : k = 0 \/ k = 1 \/ k = 2) by lia. destruct E as [-> |[-> | ->]]; rewrite andb_true_r, ?andb_false_r; reflexivity.
    + rewrite (Z.bits_above_log2 7 k) by (cbn; lia). apply andb_false_r.
  - rewrite Z.lor_spec. change (Z.testbit 512 9) with true. apply orb_true_r.
Qed.

Lemma execs_raw n : forall c sv bs ac, inRaw c = true -> exists c' i', execs (S n) (St c sv (Dev bs ac (raw_mode (omode c))) []) = St c' sv (Dev bs ac i') [] /\ inRaw c' = true /\ omode c' = Z.ldiff (omode c) 512.
Proof.
  assert (Idem : forall z, Z.ldiff (Z.ldiff z 512) 512 = Z.ldiff z 512).
  { intros z. apply Z.bits_inj'. intros k Hk. rewrite !Z.ldiff_spec. destruct (Z.testbit z k), (Z.testbit 512 k); reflexivity. }
  induction n as [|n IH]; intros c sv bs ac H.
  - cbn [execs]. rewrite exec_raw by exact H. cbn [snd]. eexists _, _. split; [reflexivity|]. cbn. auto.
  - change (execs (S (S n)) ?x) with (execs (S n) (snd (exec_tty x))). rewrite exec_raw by exact H. cbn [snd].
    destruct (IH (Con (out c) (orig c) (alt c) (inAlt c) true (Z.ldiff (omode c) 512)) sv bs ac eq_refl) as (c' & i' & E & R & O). cbn [omode] in *.
    exists c', i'. split; [exact E|]. split; [exact R|]. now rewrite O, Idem.
Qed.

Lemma final_mode_exact b m n : final_mode b m (S n) = Z.ldiff m 512.
Proof.
  unfold final_mode. destruct (execs_raw n (Con 0 0 None false true m) (0, 0) [Some b] 0%nat eq_refl) as (c' & i' & E & R & O). cbn [omode] in *.
  change (snd (EnterRawMode (start b m []))) with (St (Con 0 0 None false true m) (0, 0) (Dev [Some b] 0 (raw_mode m)) []). rewrite E.
  unfold ExitRawMode, bind, get. cbn [obj]. rewrite R. cbn. exact O.
Qed.

(** Without an external command the mode is restored exactly; with one or more, exactly if VT input was off at the start. *)
Theorem C259_mode_restored_partial : forall b m n, n = 0%nat \/ Z.testbit m 9 = false -> final_mode b m n = m.
Proof.
  intros b m n [->|H]; [reflexivity|]. destruct n as [|n]; [reflexivity|]. rewrite final_mode_exact.
  apply Z.bits_inj'. intros k Hk. rewrite Z.ldiff_spec. destruct (Z.eq_dec k 9) as [-> |Ne]; [rewrite H; reflexivity|].
  change 512 with (2 ^ 9). rewrite Z.pow2_bits_false by lia. apply andb_true_r.
Qed.
Theorem C259_mode_restored_refuted : forall b m n, Z.testbit m 9 = true -> final_mode b m (S n) <> m.
Proof.
  intros b m n H E. rewrite final_mode_exact in E. apply (f_equal (fun z => Z.testbit z 9)) in E. rewrite Z.ldiff_spec, H in E. discriminate.
Qed.
(** A usual mode with VT input: 0x3F7. *)
Example C259_case : Z.testbit 1015 9 = true /\ Z.testbit 503 9 = false.
Proof. split; reflexivity. Qed.

Print Assumptions C258_child_mode. Print Assumptions C258_raw_again. Print Assumptions C259_mode_restored_partial. Print Assumptions C259_mode_restored_refuted.
