(** C59, C334: the names of keys (KeyMsg.String), against the documents. Model: KeysModel. *)
From Coq Require String Ascii.
From Verif Require Import Prelude Utf8 KeysModel KeysSpec KeysProofs.
Import String.StringSyntax.

(** ** Specification *)
Open Scope string_scope.
Fixpoint chars (s : String.string) : list Z :=
  match s with String.EmptyString => [] | String.String c r => Z.of_nat (Ascii.nat_of_ascii c) :: chars r end.
(** What is pressed, as the terminal sends it, and the name documented for it at KeyMsg.String and at the key constants. *)
Definition names : list (list Z * list Z) :=
  [ ([13], chars "enter"); ([10], chars "enter"); ([127], chars "backspace"); ([8], chars "backspace"); ([9], chars "tab"); ([27], chars "esc"); ([32], chars "space");
    ([27;91;65], [8593]); ([27;91;66], [8595]); ([27;91;68], [8592]); ([27;91;67], [8594]);         (* the four arrows *)
    ([27;91;72], chars "home"); ([27;91;49;126], chars "home"); ([27;91;70], chars "end"); ([27;91;52;126], chars "end");
    ([27;91;50;126], chars "insert"); ([27;91;51;126], chars "delete"); ([27;91;53;126], chars "pgup"); ([27;91;54;126], chars "pgdown");
    ([27;79;80], chars "F1"); ([27;79;81], chars "F2"); ([27;79;82], chars "F3"); ([27;79;83], chars "F4");
    ([27;91;49;53;126], chars "F5"); ([27;91;49;55;126], chars "F6"); ([27;91;49;56;126], chars "F7"); ([27;91;49;57;126], chars "F8");
    ([27;91;50;48;126], chars "F9"); ([27;91;50;49;126], chars "F10"); ([27;91;50;51;126], chars "F11"); ([27;91;50;52;126], chars "F12") ].
Definition has_name (d name : list Z) : Prop :=
  In (d, name) names \/
  (exists i, d = [i] /\ 1 <= i <= 26 /\ ~ In i [8; 9; 10; 13] /\ name = chars "ctrl+" ++ [96 + i]) \/
  (exists c, d = [c] /\ 33 <= c <= 126 /\ name = [c]).
(** Names the tutorials and examples compare String() with. *)
Definition tutorial_names : list (list Z) :=
  map chars ["up"; "down"; "left"; "right"; "f1"; "shift+tab"; "ctrl+i"; "ctrl+j"].
Close Scope string_scope.

(** ** Proofs *)
Lemma names_keys : forallb (fun p => match parse_key (fst p) with Some k => list_eqb (key_string k) (snd p) | None => false end) names = true.
Proof. vm_compute. reflexivity. Qed.
Lemma keys_names : forallb (fun p => existsb (fun q => list_eqb (fst p) (fst q)) names) (csi_keys ++ ss3_keys) = true.
Proof. vm_compute. reflexivity. Qed.

(** ** C59 *)
(** Every decodable key has the documented name, and no other. *)
Theorem C59_documented_names : forall d name, (exists k, parse_key d = Some k /\ key_string k = name) <-> has_name d name.
Proof.
  pose proof names_keys as HN. rewrite forallb_forall in HN.
  assert (D : forall d name, has_name d name -> exists k, parse_key d = Some k /\ key_string k = name).
  { intros d name [I|[(i & -> & Hi & Ni & ->)|(c & -> & Hc & ->)]].
    - specialize (HN _ I). cbn [fst snd] in HN. destruct (parse_key d) as [k|]; [|discriminate]. exists k. split; [reflexivity|]. now apply list_eqb_eq.
    - eexists. split; [apply parse_key_spec; left; exists i; split; [reflexivity|apply BK_ctrl; auto]|reflexivity].
    - eexists. split; [apply parse_key_spec; left; exists c; split; [reflexivity|apply BK_print; auto]|reflexivity]. }
  intros d name. split; [|apply D]. intros (k & E & <-).
  assert (X : exists n, has_name d n).
  { apply parse_key_spec in E as [(b & -> & B)|E].
    - destruct B; try (eexists; left; cbn; tauto); eexists; right; [left|right]; eexists; eauto.
    - pose proof keys_names as K. rewrite forallb_forall in K. assert (I : In (d, k) (csi_keys ++ ss3_keys)) by (apply in_or_app; exact E).
      specialize (K _ I). apply existsb_exists in K as ([d' n] & I' & Q). cbn [fst] in Q. apply list_eqb_eq in Q. subst d'. exists n. left. exact I'. }
  destruct X as [n X]. destruct (D _ _ X) as (k' & E' & N). rewrite E in E'. injection E' as <-. now rewrite N.
Qed.
Open Scope string_scope.
(** Modifiers come before the name, in this order; Shift is not named with a character; the dedicated Ctrl+C key is "ctrl+c". *)
Theorem C59_modifiers : forall t r alt ctrl shift, key_string (Key t r alt ctrl shift) =
  match t with
  | KCtrlC => chars "ctrl+c"
  | _ => (if alt then chars "alt+" else []) ++ (if ctrl then chars "ctrl+" else []) ++
         (if shift then match t with KRune => [] | _ => chars "shift+" end else []) ++ key_string (Key t r false false false)
  end.
Proof. intros t r [] [] []; destruct t; reflexivity. Qed.
Example C59_documented_ex : has_name [27;91;50;48;126] (chars "F9") /\ has_name [3] (chars "ctrl+c") /\ chars "ctrl+c" = [99;116;114;108;43;99].
Proof. split; [left; cbn; tauto|]. split; [right; left; exists 3; repeat split; try lia; cbn; lia|reflexivity]. Qed.
Close Scope string_scope.

(** ** C334 *)
Lemma read_all_from f : forall s k, In k (read_all f s) -> (exists d, parse_key d = Some k) \/ exists r, k = Key KRune r false false false.
Proof.
  induction f as [|f IH]; intros s k I; [destruct I|]. cbn [read_all] in I. destruct (read s) as [[[k0|] s']|] eqn:E; [|eauto|destruct I].
  destruct I as [<-|I]; [|eauto]. unfold read in E. destruct (read_byte s) as [[b s1]|]; [|discriminate].
  destruct (if b =? 27 then _ else _) as [sq s2]. destruct (parse_key sq) as [k1|] eqn:P; [injection E as <- _; left; eauto|]. right.
  destruct (128 <=? b); [destruct (read_rune _) as [r s3]; injection E as <- _; now exists r|]. destruct ((32 <=? b) && (b <=? 126)); [injection E as <- _; now exists b|discriminate].
Qed.
Lemma never_named : forallb (fun n => forallb (fun p => negb (list_eqb n (snd p))) names) tutorial_names = true.
Proof. vm_compute. reflexivity. Qed.
(** No input whatever, however it arrives, yields a key with one of those names: a program written as the tutorial does not hear the arrow keys. *)
Theorem C334_tutorial_names_refuted : forall reads k, In k (delivered reads) -> ~ In (key_string k) tutorial_names.
Proof.
  intros reads k I J. pose proof never_named as V. rewrite forallb_forall in V. specialize (V _ J).
  apply read_all_from in I as [[d P]|[r ->]].
  - destruct (proj1 (C59_documented_names d (key_string k)) (ex_intro _ k (conj P eq_refl))) as [I|[(i & -> & Hi & Ni & E)|(c & -> & Hc & E)]].
    + rewrite forallb_forall in V. specialize (V _ I). cbn [snd] in V. now rewrite list_eqb_refl in V.
    + rewrite E in J. assert (exists x, x = 96 + i) as [x Hx] by eauto. rewrite <- Hx in J. cbn in J. cbn [In] in Ni. repeat match type of J with _ \/ _ => destruct J as [J|J] end; try discriminate; try contradiction; injection J as J; lia.
    + rewrite E in J. cbn in J. repeat match type of J with _ \/ _ => destruct J as [J|J] end; try discriminate; contradiction.
  - cbn in J. repeat match type of J with _ \/ _ => destruct J as [J|J] end; try discriminate; contradiction.
Qed.
(** The arrow key is delivered, under another name. *)
Example C334_ex : map key_string (delivered [[27;91;65]; [27;91;66]]) = [[8593]; [8595]].
Proof. reflexivity. Qed.

Print Assumptions C59_documented_names. Print Assumptions C59_modifiers. Print Assumptions C334_tutorial_names_refuted.
