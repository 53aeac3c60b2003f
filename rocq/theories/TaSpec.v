(** Specification vocabulary for C21-C26, C61. *)
From Verif Require Import Prelude TaModel.

(** The document seen as text with a cursor: the text before it and the text after it. *)
Definition before (t : ta) : list Z :=
  flat_map (fun l => l ++ [nl]) (firstn (row t) (buf t)) ++ firstn (col t) (nth (row t) (buf t) []).
Definition after (t : ta) : list Z :=
  skipn (col t) (nth (row t) (buf t) []) ++ flat_map (fun l => nl :: l) (skipn (S (row t)) (buf t)).
(** Value(): the lines joined by newlines. *)
Definition value (t : ta) : list Z := join_lines (buf t).

(** Cursor inside the text; at least one line; kill ring within its capacity. *)
Record valid (t : ta) : Prop := Valid {
  v_row : (row t < length (buf t))%nat;
  v_col : (col t <= length (nth (row t) (buf t) []))%nat;
  v_ring : (1 <= rmax (kring t))%nat /\ (length (items (kring t)) <= rmax (kring t))%nat }.

(** Lines contain no newline: they are the lines of Value(). *)
Definition tidy (t : ta) : Prop := Forall (fun l => ~ In nl l) (buf t).

(** The text up to (not including) the next newline, and the rest. *)
Fixpoint to_newline (s : list Z) : list Z :=
  match s with [] => [] | c :: r => if c =? nl then [] else c :: to_newline r end.
(** The text since the last newline. *)
Definition since_newline (s : list Z) : list Z := rev (to_newline (rev s)).

(** What a "word" run is, for forward and backward motion. *)
Definition all_word (s : list Z) : Prop := Forall (fun c => boundary c = false) s.
Definition all_sep (s : list Z) : Prop := Forall (fun c => boundary c = true) s.

(** Ordinary keys. *)
Definition plain (k : kt) : key := Key false false k.
Definition ctrl (c : Z) : key := Key true false (KRune c).
Definition alt (c : Z) : key := Key false true (KRune c).

(** Keys that only move the cursor. *)
Definition is_ctrl_in (l : list Z) (k : key) : bool :=
  k_ctrl k && match k_t k with KRune r => existsb (fun c => is_letter c r) l | _ => false end.
Definition motion (k : key) : bool :=
  is_ctrl_in [97; 101; 112; 110; 102; 98] k
  || (negb (is_ctrl_in [107; 117; 119; 121; 100; 104; 109] k) && k_alt k &&
      match k_t k with KRune r => is_letter 102 r || is_letter 98 r || (r =? 60) || (r =? 62) | _ => false end)
  || (negb (k_ctrl k) && negb (k_alt k) &&
      match k_t k with KUp | KDown | KLeft | KRight | KHome | KEnd => true | _ => false end).

(** Keys whose runes may be typed into the text: not a newline. *)
Definition proper (o : op) : Prop :=
  match o with OKey k => k_t k <> KRune nl | _ => True end.

(** The cursor is inside the visible window. *)
Definition cursor_visible (t : ta) : Prop :=
  srow t <= Z.of_nat (row t) < srow t + height (conf t) /\
  (wrap (conf t) = false -> scol t <= Z.of_nat (col t) < scol t + width (conf t)).

(** The characters that separate words. *)
From Coq Require Import String Ascii.
Definition codes_of (s : string) : list Z := map (fun a => Z.of_N (N_of_ascii a)) (list_ascii_of_string s).
Definition separators : list Z := 9 :: codes_of " .,;:!?()[]{}/\|-_=+*&%$#@~`'<>"%string ++ [34].

(** The Emacs keys that do the same as a named key, as (control letter, key). *)
Definition emacs_names : list (Z * kt) :=
  [(97, KHome); (101, KEnd); (112, KUp); (110, KDown); (102, KRight); (98, KLeft); (100, KDelete); (104, KBackspace); (109, KEnter)].

(** The same area without a validator. *)
Definition unfenced (t : ta) : ta :=
  set_cfg t (Cfg (width (conf t)) (height (conf t)) (wrap (conf t)) (max_lines (conf t)) (max_chars (conf t)) (read_only (conf t)) None).
Definition at_pos (t : ta) : pos := (Z.of_nat (row t), Z.of_nat (col t)).
(** Keys that go to the start of the line. *)
Definition home_key (k : key) : bool :=
  is_ctrl_in [97] k || (negb (k_ctrl k) && negb (k_alt k) && match k_t k with KHome => true | _ => false end).
