(** Properties C08-C10, C59: keyboard input of tea. Vocabulary: KeysSpec. *)
From Verif Require Import Prelude Utf8 KeysModel KeysSpec KeysProofs.

(** C08. The decoder recognises exactly the documented table, for every byte string. *)
Theorem C08_decoder_is_exactly_the_table : forall d k, parse_key d = Some k <-> decodes d k.
Proof. exact parse_key_spec. Qed.
Print Assumptions C08_decoder_is_exactly_the_table.
Example C08_ex : parse_key [27;91;50;48;126] = Some (named KF9) /\ parse_key [27;91;50;48] = None
  /\ parse_key [1] = Some (with_ctrl 97).
Proof. vm_compute. auto. Qed.

(** C09. Input without ESC: what is delivered depends only on the bytes, not on how they
    were split into reads ... *)
Theorem C09_chunking_irrelevant : forall cs cs',
  ~ In 27 (concat cs) -> concat cs = concat cs' -> delivered cs = delivered cs'.
Proof. exact chunk_independent. Qed.
Print Assumptions C09_chunking_irrelevant.

(** ... and is exactly the typed characters, in order (characters split between reads
    included). *)
Theorem C09_text_delivered_exactly : forall text cs,
  Forall scalar text -> ~ In 27 text -> concat cs = enc text ->
  delivered cs = flat_map char_msgs text.
Proof. exact delivered_text. Qed.
Print Assumptions C09_text_delivered_exactly.
Example C09_hyps : Forall scalar [104; 26085; 13; 128512] /\ ~ In 27 [104; 26085; 13; 128512] /\
  concat [[104; 230]; [151]; [165; 13; 240]; [159; 152; 128]] = enc [104; 26085; 13; 128512].
Proof.
  split; [repeat constructor; unfold scalar; lia|]. split; [cbn; lia|]. vm_compute. reflexivity.
Qed.

(** The hypothesis on ESC is necessary: an arrow key split between two reads is
    delivered as three keys. *)
Theorem C144_escape_split_refuted :
  delivered [[27]; [91; 65]] <> delivered [[27; 91; 65]].
Proof. vm_compute. discriminate. Qed.
Print Assumptions C144_escape_split_refuted.

(** C10 for the CSI keys (arrows, Home/End, Insert/Delete, paging, F5-F12): delivered
    as that key, consuming exactly its bytes, whatever follows.
    Missing: F1-F4 and a lone Esc followed by other input (false, below). *)
Theorem C10_csi_keys_delivered : forall d k, In (d, k) csi_keys ->
  forall rest cs, read (RS [] ((d ++ rest) :: cs)) = Some (Some k, RS rest cs).
Proof.
  intros d k Hin rest cs.
  assert (Hd : d <> []) by (intros ->; cbn in Hin; intuition discriminate).
  exact (eq_trans (read_fresh d rest cs Hd) (csi_delivered d k Hin rest cs)).
Qed.
Print Assumptions C10_csi_keys_delivered.

(** F1-F4: the decoder documents ESC O P..S but the reader stops at the letter 'O', so
    none of them is ever delivered; the last letter arrives as a typed character. *)
Theorem C145_f1_to_f4_refuted : forall d k, In (d, k) ss3_keys ->
  forall cs, exists c, read (RS [] (d :: cs)) = Some (None, RS [c] cs) /\
                       read (RS [c] cs) = Some (Some (letter c), RS [] cs).
Proof.
  intros d k H cs.
  cbn in H. destruct H as [H|[H|[H|[H|[]]]]]; injection H as <- <-;
  eexists; split; reflexivity.
Qed.
Print Assumptions C145_f1_to_f4_refuted.

(** Pressing Esc and typing in the same read loses both the Esc key and text. *)
Theorem C146_esc_then_text_refuted : delivered [[27; 49; 50; 51; 52; 104; 105]] = [letter 105].
Proof. vm_compute. reflexivity. Qed.
Print Assumptions C146_esc_then_text_refuted.

(** C59. The textual names programs compare against identify the key: two decodable
    keys with the same name are the same key. *)
Theorem C59_key_names_unambiguous : forall d1 d2 a b,
  parse_key d1 = Some a -> parse_key d2 = Some b -> key_string a = key_string b -> a = b.
Proof. exact key_string_inj. Qed.
Print Assumptions C59_key_names_unambiguous.
Example C59_ex : exists a, parse_key [3] = Some a /\ key_string a = [99;116;114;108;43;99].
Proof. eexists. split; reflexivity. Qed.
