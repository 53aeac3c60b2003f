(** Model of components/form: form.go, internal/domain/model/form.go, internal/domain/value/{field,validator}.go,
    internal/infrastructure/keyboard.go.

    A field's component is any type [Mdl]: [iface] says which of the interfaces form.go asks for it implements and what they
    return now, [upd] its Update method (None: it has no method Update(tea.Msg) (value.FieldModel, tea.Cmd), so
    it is never updated by the form). Titles, labels and View are not modelled. *)
From Verif Require Import Prelude Utf8 KeysModel.
From Coq Require String Ascii.
Import String.StringSyntax.

(** an ASCII literal *)
Definition ascii (s : String.string) : list Z := map (fun a => Z.of_nat (Ascii.nat_of_ascii a)) (String.list_ascii_of_string s).
Arguments ascii s%string_scope.

(** dynamic values handed to validators *)
Inductive val := VNil | VStr (s : list Z) | VOther (n : Z).
Inductive iface_kind := HasValue (s : list Z) | HasSelected (v : option val) | Neither (v : val).
Definition err := list Z.
Definition validator := val -> option err.

(** unicode.IsSpace *)
Definition is_space (r : Z) : bool :=
  ((9 <=? r) && (r <=? 13)) || (r =? 32) || (r =? 133) || (r =? 160) || (r =? 5760) || ((8192 <=? r) && (r <=? 8202)) ||
  (r =? 8232) || (r =? 8233) || (r =? 8239) || (r =? 8287) || (r =? 12288).
(* strings.TrimSpace(s) == "" *)
Definition blank (s : list Z) : bool := forallb is_space (runes_of s).
(** fmt's %d *)
Definition sdec (n : Z) : list Z := if n <? 0 then 45 :: dec (- n) else dec n.
(* the messages, validator.go:17, 24, 37, 41, 53, 57 *)
Definition e_required : err := ascii "required".
Definition e_short (n : Z) : err := ascii "must be at least " ++ sdec n ++ ascii " characters".
Definition e_long (n : Z) : err := ascii "must be at most " ++ sdec n ++ ascii " characters".
Definition e_type : err := ascii "invalid type (expected string)".
(* validator.go:14-29 *)
Definition required : validator := fun v => match v with VNil => Some e_required | VStr s => if blank s then Some e_required else None | VOther _ => None end.
(* 32-45: len(str), bytes *)
Definition min_length (n : Z) : validator := fun v => match v with VStr s => if Z.of_nat (length s) <? n then Some (e_short n) else None | _ => Some e_type end.
(* 48-61 *)
Definition max_length (n : Z) : validator := fun v => match v with VStr s => if n <? Z.of_nat (length s) then Some (e_long n) else None | _ => Some e_type end.

Section Form.
Variable Mdl Msg : Type.
Variable iface : Mdl -> iface_kind.
Variable upd : Mdl -> Msg -> option Mdl.
Variable key_msg : keymsg -> Msg.

(* field.go:10-18 *)
Record field := Field { fname : list Z; mdl : Mdl; vals : list validator; touched : bool; dirty : bool; errs : list err }.
(* field.go:21-31, form.go:74 *)
Definition new_field (n : list Z) (m : Mdl) (vs : list validator) : field := Field n m vs false false [].
Definition mark_touched (f : field) : field := Field (fname f) (mdl f) (vals f) true (dirty f) (errs f).
Definition with_errors (f : field) (e : list err) : field := Field (fname f) (mdl f) (vals f) (touched f) (dirty f) e.
Definition field_valid (f : field) : bool := match errs f with [] => true | _ => false end.
(* model/form.go:9-14 *)
Record form := Form { fields : list field; focused : Z; submitted : bool }.
Definition nfields (f : form) : Z := Z.of_nat (length (fields f)).
Definition upd_at (l : list field) (i : Z) (g : field -> field) : list field :=
  map (fun p => if Z.of_nat (fst p) =? i then g (snd p) else snd p) (combine (seq 0 (length l)) l).
(* 17-24 *)
Definition new_form : form := Form [] 0 false.
(* form.go:73-90, model/form.go:47-59 *)
Definition add_field (f : form) (n : list Z) (m : Mdl) (vs : list validator) : form :=
  let fs := fields f ++ [new_field n m vs] in
  Form fs (if Z.of_nat (length fs) <=? focused f then 0 else focused f) (submitted f).
(* 70-90 *)
Definition focus_next (f : form) : form :=
  if nfields f =? 0 then f
  else Form (upd_at (fields f) (focused f) mark_touched) ((focused f + 1) mod nfields f) (submitted f).
(* 93-116 *)
Definition focus_prev (f : form) : form :=
  if nfields f =? 0 then f
  else Form (upd_at (fields f) (focused f) mark_touched) (if focused f - 1 <? 0 then nfields f - 1 else focused f - 1) (submitted f).
(* 119-139 *)
Definition update_field (f : form) (i : Z) (m : Mdl) : form :=
  if (i <? 0) || (nfields f <=? i) then f
  else Form (upd_at (fields f) i (fun x => Field (fname x) m (vals x) (touched x) true (errs x))) (focused f) (submitted f).
(* form.go:250-269: the value of one field *)
Definition value_of (x : field) : option val := match iface (mdl x) with HasValue s => Some (VStr s) | HasSelected v => v | Neither v => Some v end.
(* the map built there, at one name: later fields overwrite earlier ones *)
Definition lookup (fs : list field) (n : list Z) : option val :=
  fold_left (fun acc x => if list_eqb (fname x) n then match value_of x with Some v => Some v | None => acc end else acc) fs None.
Definition run_validators (vs : list validator) (v : val) : list err :=
  flat_map (fun g : validator => match g v with Some e => [e] | None => [] end) vs.
(* model/form.go:171-200 *)
Definition validate_field (fs : list field) (x : field) : field := match lookup fs (fname x) with None => x | Some v => with_errors x (run_validators (vals x) v) end.
Definition validate_all (f : form) : form := Form (map (validate_field (fields f)) (fields f)) (focused f) (submitted f).
(* 203-210 *)
Definition is_valid (f : form) : bool := forallb field_valid (fields f).

(* keyboard.go:33-65 *)
Inductive faction := FNext | FPrev | FSubmit | FQuit | FNone.
Definition faction_of (k : keymsg) : faction :=
  match ktype k with
  | KTab => if kshift k then FPrev else FNext
  | KEnter => FSubmit | KCtrlC => FQuit | KEsc => FQuit
  | _ => FNone
  end.
Inductive fcmd := FcNone | FcSubmit | FcQuit | FcField.
(* form.go:221-246 *)
Definition delegate (f : form) (m : Msg) : form * fcmd :=
  match nth_error (fields f) (Z.to_nat (focused f)) with
  | None => (f, FcNone)
  | Some x => match upd (mdl x) m with Some m' => (update_field f (focused f) m', FcField) | None => (f, FcNone) end
  end.
(* form.go:166-218 *)
Definition handle_key (f : form) (k : keymsg) : form * fcmd :=
  match faction_of k with
  | FNext => (focus_next f, FcNone)
  | FPrev => (focus_prev f, FcNone)
  | FSubmit => let f' := validate_all f in if is_valid f' then (Form (fields f') (focused f') true, FcSubmit) else (f', FcNone)
  | FQuit => (f, FcQuit)
  | FNone => delegate f (key_msg k)
  end.
(** Everything an application can do with a form: key presses, other messages, adding fields. *)
Inductive fop := FKey (k : keymsg) | FMsg (m : Msg) | FAdd (n : list Z) (m : Mdl) (vs : list validator).
Definition fstep (f : form) (o : fop) : form :=
  match o with FKey k => fst (handle_key f k) | FMsg m => fst (delegate f m) | FAdd n m vs => add_field f n m vs end.
Definition fsteps (os : list fop) (f : form) : form := fold_left fstep os f.
End Form.
Arguments Field {Mdl}. Arguments fname {Mdl}. Arguments mdl {Mdl}. Arguments vals {Mdl}. Arguments touched {Mdl}. Arguments dirty {Mdl}. Arguments errs {Mdl}.
Arguments new_field {Mdl}. Arguments mark_touched {Mdl}. Arguments with_errors {Mdl}. Arguments field_valid {Mdl}. Arguments Form {Mdl}. Arguments fields {Mdl}. Arguments focused {Mdl}. Arguments submitted {Mdl}.
Arguments nfields {Mdl}. Arguments upd_at {Mdl}. Arguments new_form {Mdl}. Arguments add_field {Mdl}. Arguments focus_next {Mdl}. Arguments focus_prev {Mdl}. Arguments update_field {Mdl}. Arguments value_of {Mdl}. Arguments lookup {Mdl}.
Arguments validate_field {Mdl}. Arguments validate_all {Mdl}. Arguments is_valid {Mdl}. Arguments delegate {Mdl Msg}. Arguments handle_key {Mdl Msg}. Arguments FKey {Mdl Msg}. Arguments FMsg {Mdl Msg}. Arguments FAdd {Mdl Msg}. Arguments fstep {Mdl Msg}. Arguments fsteps {Mdl Msg}.

(** Go slices, for form.go:76 [append(f.domain.Fields(), field)]: memory is a list of arrays, a slice an array number and a
    length; the capacity is the length of its array (slices here always start at index 0). *)
Section Slices.
Variable grow : nat -> nat. (* capacity of the array allocated when a full slice of this length is appended to *)
Definition memory := list (list Z).
Record slice := Slice { arr : nat; len : nat }.
Definition contents (m : memory) (s : slice) : list Z := firstn (len s) (nth (arr s) m []).
Definition set_nth (l : list Z) (i : nat) (v : Z) : list Z := firstn i l ++ v :: skipn (S i) l.
(* append(s, v) *)
Definition append1 (m : memory) (s : slice) (v : Z) : memory * slice :=
  let a := nth (arr s) m [] in
  if (len s <? length a)%nat then (firstn (arr s) m ++ set_nth a (len s) v :: skipn (S (arr s)) m, Slice (arr s) (S (len s)))
  else (m ++ [firstn (len s) a ++ v :: repeat 0 (grow (len s) - S (len s))], Slice (length m) (S (len s))).
(* make([]T, len(s)); copy(new, s): focus moves and validation *)
Definition fresh_copy (m : memory) (s : slice) : memory * slice := (m ++ [contents m s], Slice (length m) (len s)).
End Slices.

(* ---------- queries and view ---------- *)
(** form.go:95-115: Values()[name], and Value(name) through the index of the last field added under that name (the names of
    fields never change, so the map of indices is a function of the fields). *)
Definition model_named {Mdl} (fs : list (field Mdl)) (n : list Z) : option Mdl :=
  fold_left (fun acc x => if list_eqb (fname x) n then Some (mdl x) else acc) fs None.
(* form.go:123-130 *)
Definition is_dirty {Mdl} (f : form Mdl) : bool := existsb dirty (fields f).
(* model/form.go:240-254: Errors()[name] *)
Definition errors_named {Mdl} (fs : list (field Mdl)) (n : list Z) : list err :=
  fold_left (fun acc x => if list_eqb (fname x) n then match errs x with [] => acc | e => e end else acc) fs [].
(** form.go:319-347: what is drawn of one field: its label, the focus mark, its component, then its errors, or the mark
    "Valid", or nothing. Labels, titles and the component's text are kept abstract. *)
Inductive status := SErrors (e : list err) | SValid | SNothing.
Definition field_status {Mdl} (x : field Mdl) : status :=
  match errs x with [] => if touched x && field_valid x then SValid else SNothing | e => SErrors e end.
(* form.go:303-316: one entry per field, in order: name, focused, component, status *)
Definition form_view {Mdl} (f : form Mdl) : list (list Z * bool * Mdl * status) :=
  map (fun p => (fname (snd p), Z.of_nat (fst p) =? focused f, mdl (snd p), field_status (snd p))) (combine (seq 0 (length (fields f))) (fields f)).
