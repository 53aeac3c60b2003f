(** Model of the single-line text input: components/input/internal/input
    (domain/model/input.go, domain/value/cursor.go, selection.go, domain/service/cursor_movement.go,
    validation.go, infrastructure/keybindings.go) and components/input/input.go.

    Content is a list of code points (Go: a UTF-8 string).  Grapheme segmentation (the uniseg
    library) is a parameter: [brk left c] says whether a cluster boundary falls between the text
    [left] (reversed) and the following code point [c].  Unicode's rules, and uniseg's state
    machine, decide a boundary from the text to its left and the next code point only. *)
From Verif Require Import Prelude Utf8.

Section Input.
Variable brk : list Z -> Z -> bool.

Fixpoint seg_from (left cur s : list Z) : list (list Z) :=
  match s with
  | [] => match cur with [] => [] | _ => [cur] end
  | c :: r =>
      match cur with
      | [] => seg_from (c :: left) [c] r
      | _ => if brk left c then cur :: seg_from (c :: left) [c] r else seg_from (c :: left) (cur ++ [c]) r
      end
  end.
Definition graphemes (s : list Z) : list (list Z) := seg_from [] [] s.

(* cursor_movement.go:61-68 *)
Definition gcount (s : list Z) : nat := length (graphemes s).
(* cursor_movement.go:74-102 *)
Definition split_at (s : list Z) (pos : nat) : list Z * list Z * list Z :=
  let gs := graphemes s in
  if (pos <? length gs)%nat then (concat (firstn pos gs), nth pos gs [], concat (skipn (S pos) gs)) else (s, [], []).
(* cursor_movement.go:133-152 (offset of the boundary, here in code points) *)
Definition goffset (s : list Z) (g : nat) : nat :=
  let gs := graphemes s in
  if (g =? 0)%nat then 0%nat else if (g <? length gs)%nat then length (concat (firstn g gs)) else length s.
(* cursor_movement.go:20-46 *)
Definition left_pos (s : list Z) (p : nat) : nat :=
  match p with
  | O => O
  | S t => if (t <? gcount s)%nat then t else if (gcount s <? t)%nat then gcount s else t
  end.
(* cursor_movement.go:50-58 *)
Definition right_pos (s : list Z) (p : nat) : nat := if (gcount s <=? p)%nat then gcount s else S p.

(* ---------- input.go (model) ---------- *)
Record inp := Inp { content : list Z; cursor : nat; sel : option (nat * nat); iwidth : Z; focused : bool }.

(* input.go:27-45 *)
Definition new_inp (w : Z) : inp := Inp [] 0 None (if w <? 1 then 1 else w) false.

(* cursor.go:28-50 *)
Definition move_to (off : Z) (m : nat) : nat := Z.to_nat (clampZ 0 (Z.of_nat m) off).
Definition move_by (o : nat) (d : Z) (m : nat) : nat := move_to (Z.of_nat o + d) m.
(* selection.go:13-30 *)
Definition new_sel (a b : Z) : nat * nat :=
  let a := Z.to_nat a in let b := Z.to_nat b in if (b <? a)%nat then (b, a) else (a, b).
(* selection.go:59-74 *)
Definition clamp_sel (s : nat * nat) (m : nat) : nat * nat := (Nat.min (fst s) m, Nat.min (snd s) m).
Definition sel_empty (s : nat * nat) : bool := (fst s =? snd s)%nat.
Definition has_sel (t : inp) : bool := match sel t with Some s => negb (sel_empty s) | None => false end.

Definition put (t : inp) (s : list Z) (c : nat) (x : option (nat * nat)) : inp := Inp s c x (iwidth t) (focused t).

(* input.go:102-118 *)
Definition with_content (t : inp) (s : list Z) : inp :=
  let m := gcount s in
  put t s (move_to (Z.of_nat (cursor t)) m)
    (match sel t with Some x => if sel_empty (clamp_sel x m) then None else Some (clamp_sel x m) | None => None end).
(* input.go:122-139 *)
Definition set_content (t : inp) (s : list Z) (p : Z) : inp := put t s (move_to p (gcount s)) None.
(* input.go:142-146 *)
Definition with_cursor_at (t : inp) (p : Z) : inp := put t (content t) (move_to p (gcount (content t))) (sel t).
(* input.go:149-157 *)
Definition with_selection (t : inp) (a b : Z) : inp :=
  let x := clamp_sel (new_sel a b) (gcount (content t)) in put t (content t) (snd x) (Some x).
(* input.go:194-222 *)
Definition move_left_ (t : inp) : inp := put t (content t) (left_pos (content t) (cursor t)) None.
Definition move_right_ (t : inp) : inp := put t (content t) (right_pos (content t) (cursor t)) None.
Definition move_home (t : inp) : inp := put t (content t) 0 None.
Definition move_end (t : inp) : inp := put t (content t) (gcount (content t)) None.
(* input.go:329-345 *)
Definition delete_selection (t : inp) : inp :=
  match sel t with
  | Some x =>
      if sel_empty x then t
      else let s := content t in
           put t (firstn (goffset s (fst x)) s ++ skipn (goffset s (snd x)) s) (fst x) None
  | None => t
  end.
(* input.go:225-241 *)
Definition insert_rune (t : inp) (r : Z) : inp :=
  let t := if has_sel t then delete_selection t else t in
  let '(b, a, c) := split_at (content t) (cursor t) in
  let s := b ++ [r] ++ a ++ c in
  put t s (move_by (cursor t) 1 (gcount s)) (sel t).
(* input.go:244-272 *)
Definition delete_backward (t : inp) : inp :=
  if has_sel t then delete_selection t
  else if (cursor t =? 0)%nat then t
  else let '(b, a, c) := split_at (content t) (cursor t) in
       let b := match b with [] => [] | _ => firstn (goffset b (gcount b - 1)) b end in
       let s := b ++ a ++ c in
       put t s (move_by (cursor t) (-1) (gcount s)) (sel t).
(* input.go:275-293 *)
Definition delete_forward_ (t : inp) : inp :=
  if has_sel t then delete_selection t
  else if (gcount (content t) <=? cursor t)%nat then t
  else let '(b, _, c) := split_at (content t) (cursor t) in put t (b ++ c) (cursor t) (sel t).
(* input.go:296-316 *)
Definition clear (t : inp) : inp := put t [] 0 None.
Definition select_all (t : inp) : inp :=
  let m := gcount (content t) in put t (content t) m (Some (0%nat, m)).
Definition clear_selection (t : inp) : inp := put t (content t) (cursor t) None.

(* ---------- keybindings.go ---------- *)
Inductive itype := ILeft | IRight | IHome | IEnd | IBackspace | IDelete | ISpace | IRune | IOther.
Record ikey := IKey { ik_ctrl : bool; ik_rune : Z; ik_t : itype }.
(* keybindings.go:42-75 *)
Definition by_type (t : inp) (k : ikey) : inp :=
  match ik_t k with
  | ILeft => move_left_ t | IRight => move_right_ t | IHome => move_home t | IEnd => move_end t
  | IBackspace => delete_backward t | IDelete => delete_forward_ t
  | ISpace => insert_rune t 32 | IRune => insert_rune t (ik_rune k)
  | IOther => t
  end.
Definition upper_eq (c r : Z) : bool := (r =? c) || (r =? c - 32).
(* keybindings.go:26-76 *)
Definition bind (t : inp) (k : ikey) : inp :=
  if ik_ctrl k then
    if upper_eq 97 (ik_rune k) then select_all t
    else if upper_eq 117 (ik_rune k) then clear t
    else if upper_eq 101 (ik_rune k) then move_end t
    else by_type t k
  else by_type t k.
(* input.go (public) 154-170 *)
Definition update (t : inp) (k : ikey) : inp := if focused t then bind t k else t.

Inductive iop :=
| IKeyOp (k : ikey) | IContent (s : list Z) | ISetContent (s : list Z) (p : Z) | IFocus (b : bool) | IWidth (w : Z)
| ICursor (p : Z) | ISelect (a b : Z) | IClearSel.
Definition iapply (o : iop) (t : inp) : inp :=
  match o with
  | IKeyOp k => update t k
  | IContent s => with_content t s
  | ISetContent s p => set_content t s p
  | IFocus b => Inp (content t) (cursor t) (sel t) (iwidth t) b
  | IWidth w => Inp (content t) (cursor t) (sel t) (if w <? 1 then 1 else w) (focused t)
  | ICursor p => with_cursor_at t p
  | ISelect a b => with_selection t a b
  | IClearSel => clear_selection t
  end.
Definition iapply_all (os : list iop) (t : inp) : inp := fold_left (fun t o => iapply o t) os t.

(* ---------- input.go (public) 202-263 ---------- *)
(** What is drawn: text before the cursor cell, the cursor cell's text ("" is drawn as a blank),
    text after; or plain text.  [bytes] is the UTF-8 encoding: Go's len and slices count bytes. *)
Inductive drawn := WithCell (b a c : list Z) | NoCell (s : list Z).
Definition bytes (s : list Z) : list Z := enc s.
Definition slice (s : list Z) (i j : Z) : option (list Z) :=
  if (0 <=? i) && (i <=? j) && (j <=? Z.of_nat (length s)) then Some (firstn (Z.to_nat (j - i)) (skipn (Z.to_nat i) s)) else None.
Definition render_content (t : inp) : option drawn :=
  let '(b, a, c) := split_at (content t) (cursor t) in
  let all := bytes (b ++ a ++ c) in
  let n := Z.of_nat (length all) in
  if n <=? iwidth t then Some (if focused t then WithCell (bytes b) (bytes a) (bytes c) else NoCell all)
  else
    let p := Z.of_nat (cursor t) in
    let w := iwidth t in
    let so := if p <? 0 then p else 0 in      (* the stored offset is always 0 *)
    let so := if so + w <=? p then p - w + 1 else so in
    let ve := if n <? so + w then n else so + w in
    match slice all so ve with
    | None => None
    | Some vis =>
        if focused t && (so <=? p) && (p <? so + w) then
          let i := p - so in
          let m := Z.of_nat (length vis) in
          if i <=? m then
            match slice vis 0 i with
            | None => None
            | Some vb =>
                (* string(byte) is the encoding of the code point with the byte's value *)
                let va := if i <? m then enc (firstn 1 (skipn (Z.to_nat i) vis)) else [] in
                let vc := if i + 1 <? m then skipn (Z.to_nat (i + 1)) vis else [] in
                Some (WithCell vb va vc)
            end
          else Some (NoCell vis)
        else Some (NoCell vis)
    end.
End Input.

(* ---------- validation.go ---------- *)
Inductive verr := EEmpty | ETooShort | ETooLong | ECustom (n : Z).
Definition validator_ := list Z -> option verr.
(* validation.go:40-94; Go's len counts bytes *)
Definition not_empty : validator_ := fun s => match s with [] => Some EEmpty | _ => None end.
Definition min_length (n : Z) : validator_ := fun s => if Z.of_nat (length (bytes s)) <? n then Some ETooShort else None.
Definition max_length (n : Z) : validator_ := fun s => if n <? Z.of_nat (length (bytes s)) then Some ETooLong else None.
Definition range_ (a b : Z) : validator_ := fun s =>
  let l := Z.of_nat (length (bytes s)) in if l <? a then Some ETooShort else if b <? l then Some ETooLong else None.
Fixpoint chain (vs : list validator_) : validator_ := fun s =>
  match vs with [] => None | v :: r => match v s with Some e => Some e | None => chain r s end end.
