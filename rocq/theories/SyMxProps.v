(** One theme manager, several goroutines: C117 from the single accesses. *)
From Verif Require Import Prelude SyModel SyThemeProps MxModel MxProofs SyMxModel.
From Coq Require Import Sorting.Permutation.

Notation alone := (alone theme tpos tcall tres t_first t_next).
Notation one_by_one := (one_by_one theme tpos tcall tres t_first t_next).
Fixpoint body (n : nat) (c : tcall) (p : tpos) (s : theme) : option (tres * theme) :=
  match n with O => None | S n => match t_next c p s with inr r => Some (r, s) | inl (p', s') => body n c p' s' end end.
Lemma body_on c l x l1 x1 : part _ _ _ _ t_next c l x l1 x1 -> forall n q, body n c l x = Some q -> exists m, body m c l1 x1 = Some q.
Proof. intros P. induction P as [l x|l x l1 x1 l2 x2 P IH E]; intros n q B; [eauto|]. destruct (IH n q B) as (m & B2). destruct m; [discriminate|]. cbn [body] in B2. rewrite E in B2. eauto. Qed.
Lemma body_alone c s r s' : alone c s r s' -> forall n q, body n c TStart s = Some q -> q = (r, s').
Proof. intros (l & P & R) n q B. destruct (body_on _ _ _ _ _ P n q B) as (m & B2). destruct m; [discriminate|]. cbn [body] in B2. rewrite R in B2. congruence. Qed.
Lemma alone_is c s r s' : alone c s r s' -> manage s c = (s', r).
Proof.
  intros A. assert (Q := body_alone _ _ _ _ A 3%nat).
  destruct c as [[t|]|n|o| |]; specialize (Q _ eq_refl); cbn [manage returns stored t_lock] in *; try (destruct (preset_by_name n)); congruence.
Qed.
Definition as_trace (o : list (nat * (tcall * tres))) : list (nat * tcall * tres) := map (fun x => (fst x, fst (snd x), snd (snd x))) o.
Lemma run_is s cs s' : one_by_one s (map snd cs) s' -> fst (sequential s (as_trace cs)) /\ snd (sequential s (as_trace cs)) = s'.
Proof.
  revert s'. induction cs as [|[i [c r]] cs IH] using rev_ind; intros s' O; [inversion O; [split; [exact Logic.I|reflexivity]|destruct cs; discriminate]|].
  rewrite map_app in O. cbn [map snd] in O. inversion O as [x Hx Hn|x cs1 x1 c1 r1 x2 O1 A Hy Hx Hz]; [destruct (map snd cs); discriminate|]. apply app_inj_tail in Hx as [-> Hx]. injection Hx as -> ->. subst.
  destruct (IH _ O1) as [I1 I2]. apply alone_is in A. unfold as_trace. rewrite map_app. fold (as_trace cs). cbn [map fst snd].
  destruct (sequential_app (as_trace cs) s [(i, c, r)]) as [A1 A2]. rewrite A1, I2 in *. cbn [sequential] in *. rewrite A in *. cbn [fst snd] in *. split; [apply A2; auto|reflexivity].
Qed.

(* ---------- C117 ---------- *)

(** The calls of several goroutines, taken apart into single accesses and interleaved at will: there is an order of the returned
    calls, keeping each goroutine's own, in which they behave as one after another ([sequential] runs [manage]); the current theme
    is the one they leave behind whenever no call is under way; and each goroutine's returned calls are those of its program. *)
Theorem C117_locks : forall t0 ps sched, let s := t_exec sched t0 ps in
  exists order, fst (sequential t0 (as_trace order)) /\ (Forall (fun th => st th = Idle) (ths s) -> sh s = snd (sequential t0 (as_trace order))) /\
    (forall i th, nth_error (ths s) i = Some th -> of_thread _ _ i order = done th ++ match st th with Leaving c r => [(c, r)] | _ => [] end) /\
    (forall i th p, nth_error (ths s) i = Some th -> nth_error ps i = Some p -> exists rest, calls_of _ _ (flat_map t_steps p) = map fst (done th) ++ rest /\ (finished s -> rest = [])) /\
    length (ths s) = length ps /\ (forall i x, In (i, x) order -> (i < length ps)%nat).
Proof.
  intros t0 ps sched s. unfold t_exec in s.
  destruct (lock_serialises _ _ _ _ unit Empty_set t_lock t_first t_next (fun o _ => match o with end) ltac:(intros c l x l' x' L E; destruct l; cbn [t_next] in E; rewrite ?L in E; congruence) t0 tt (map (flat_map t_steps) ps) sched) as (order & base & O & Dn & Pr & Re & Le & Id).
  fold s in Dn, Pr, Re, Le. rewrite map_length in Le, Id. destruct (run_is _ _ _ O) as [I B]. exists order. split; [exact I|]. split; [|split; [exact Dn|split; [|split; [exact Le|]]]].
  - intros Q. rewrite B. apply Re. eapply Forall_impl; [|exact Q]. unfold holds. intros th ->. reflexivity.
  - intros i th p E P. specialize (Pr i th (flat_map t_steps p) E ltac:(rewrite nth_error_map, P; reflexivity)).
    eexists. split; [exact Pr|]. intros F. unfold finished in F. rewrite Forall_forall in F. destruct (F th (nth_error_In _ _ E)) as [F1 F2]. unfold in_progress. rewrite F1, F2. reflexivity.
  - intros i x Hi. rewrite Forall_forall in Id. exact (Id _ Hi).
Qed.
(** No deadlock. *)
Theorem C117_no_deadlock : forall t0 ps sched, let s := t_exec sched t0 ps in ~ finished s -> exists i, step t_lock t_first t_next (fun (o : Empty_set) (_ : unit) => match o with end) i s <> None.
Proof. intros t0 ps sched s N. unfold s, t_exec in *. apply lock_no_deadlock. exact N. Qed.
(** Two goroutines laying their own theme over the current one: neither is lost. *)
Theorem C117_no_lost_merge : forall t0 a b sched, let s := t_exec sched t0 [[MergeTheme a]; [MergeTheme b]] in finished s -> sh s = merge (merge t0 a) b \/ sh s = merge (merge t0 b) a.
Proof.
  intros t0 a b sched s F. destruct (C117_locks t0 [[MergeTheme a]; [MergeTheme b]] sched) as (order & S1 & S2 & Dn & Pr & Le & Id). fold s in S2, Dn, Pr, Le.
  assert (FI : forall th, In th (ths s) -> st th = Idle) by (intros th Hth; unfold finished in F; rewrite Forall_forall in F; apply F; exact Hth).
  specialize (S2 ltac:(apply Forall_forall; exact FI)). rewrite S2. cbn [length] in Le, Id.
  destruct (ths s) as [|ta [|tb [|]]] eqn:T; try discriminate.
  assert (Q : map fst (of_thread _ _ 0 order) = [MergeTheme a] /\ map fst (of_thread _ _ 1 order) = [MergeTheme b]).
  { split; [rewrite (Dn 0%nat ta eq_refl), (FI ta (or_introl eq_refl)); destruct (Pr 0%nat ta _ eq_refl eq_refl) as (rest & Q & R)
           |rewrite (Dn 1%nat tb eq_refl), (FI tb (or_intror (or_introl eq_refl))); destruct (Pr 1%nat tb _ eq_refl eq_refl) as (rest & Q & R)];
      rewrite (R F), app_nil_r in Q; rewrite app_nil_r; symmetry; exact Q. }
  destruct Q as [Q0 Q1]. clear - S1 Q0 Q1 Id. unfold of_thread in *.
  assert (P : forall i x o, order = (i, x) :: o -> i = 0%nat \/ i = 1%nat) by (intros i x o ->; specialize (Id i x (or_introl eq_refl)); lia).
  assert (Z0 : forall o : list (nat * (tcall * tres)), (forall i x, In (i, x) o -> (i < 2)%nat) -> filter (fun p => Nat.eqb (fst p) 0) o = [] -> filter (fun p => Nat.eqb (fst p) 1) o = [] -> o = []).
  { clear. intros [|[i x] o] Id A B; [reflexivity|]. specialize (Id i x (or_introl eq_refl)). cbn [filter fst] in A, B. destruct i as [|[|i]]; cbn in A, B; try discriminate. lia. }
  assert (N : forall (l : list (nat * (tcall * tres))), map fst (map snd l) = [] -> l = []) by (intros [|]; [reflexivity|discriminate]).
  destruct order as [|[i [c r]] o]; [discriminate|]. assert (Ido : forall j x, In (j, x) o -> (j < 2)%nat) by (intros j x J; apply (Id j x); right; exact J).
  destruct (P _ _ _ eq_refl) as [->| ->]; cbn in Q0, Q1.
  - injection Q0 as -> Q0. apply N in Q0. destruct o as [|[j [c2 r2]] o]; [discriminate|]. assert (J := Ido j _ (or_introl eq_refl)). cbn in Q0, Q1.
    destruct j as [|[|j]]; cbn in Q0, Q1; [discriminate| |lia]. injection Q1 as -> Q1. apply N in Q1. assert (o = []) as -> by (apply Z0; [intros k x K; apply (Ido k x); right; exact K|assumption|assumption]). left. reflexivity.
  - injection Q1 as -> Q1. apply N in Q1. destruct o as [|[j [c2 r2]] o]; [discriminate|]. assert (J := Ido j _ (or_introl eq_refl)). cbn in Q0, Q1.
    destruct j as [|[|j]]; cbn in Q0, Q1; [|discriminate|lia]. injection Q0 as -> Q0. apply N in Q0. assert (o = []) as -> by (apply Z0; [intros k x K; apply (Ido k x); right; exact K|assumption|assumption]). right. reflexivity.
Qed.
Example C117_locks_ex : let s := t_exec ([0;0;1;1;0;0;0;1;1;1;1;1]%nat) default_theme [[SetTheme (Some dark_theme); Current]; [SetTheme (Some light_theme)]] in
  map (fun th => (done th, todo th)) (ths s) = [([(SetTheme (Some dark_theme), RTheme default_theme)], [Do Current]); ([(SetTheme (Some light_theme), RTheme dark_theme)], [])].
Proof. vm_compute. reflexivity. Qed.
Example C117_no_lost_merge_ex : finished (t_exec ([0;1;0;0;1;0;0;1;1;1;1;1]%nat) default_theme [[MergeTheme dark_theme]; [MergeTheme light_theme]]).
Proof. vm_compute. repeat (apply Forall_cons; [split; reflexivity|]). apply Forall_nil. Qed.

Print Assumptions C117_locks. Print Assumptions C117_no_deadlock. Print Assumptions C117_no_lost_merge.
