(** Model of the Email and Pattern validators (components/form/internal/domain/value/validator.go:64-101).

    Go's regular expressions (regexp/syntax with its Perl flags) are modelled for the sublanguage made of an optional ^, a
    sequence of single-character expressions (a literal, an escaped punctuation mark, the dot, \d \D \w \W \s \S, a bracketed
    class, negated or not) each with an optional + * ? {n} {n,} or {n,m}, and an optional $ : no groups, alternatives, flags,
    lazy repetitions or named classes. Any other pattern is outside the model ([None]), also one that is not valid UTF-8 or so
    large that Go refuses it. Matching is over the runes of the value: a byte that is not part of a valid encoding reads as
    U+FFFD. *)
From Verif Require Import Prelude Utf8 FmModel.
From Coq Require String Ascii.
Import String.StringSyntax.

(** One character of a set, or any number of them, or at most one. *)
Inductive item := One (p : Z -> bool) | Many (p : Z -> bool) | Opt (p : Z -> bool).

Definition c_lit (c : Z) : Z -> bool := fun r => r =? c.
Definition c_any : Z -> bool := fun r => negb (r =? 10).
Definition c_or (p q : Z -> bool) : Z -> bool := fun r => p r || q r.
Definition c_range (a b : Z) : Z -> bool := fun r => (a <=? r) && (r <=? b).
Definition c_none : Z -> bool := fun _ => false.

(** The inside of a bracketed class and what follows its closing bracket (regexp/syntax: parseClass). *)
Fixpoint p_class (fuel : nat) (s : list Z) : option ((Z -> bool) * list Z) :=
  match fuel with
  | O => None
  | S f =>
      match s with
      | [] => None
      | a :: r =>
          if a =? 93 then Some (c_none, r)                                        (* ] *)
          else if (a =? 91) || (a =? 92) then None                                (* named classes and escapes: not modelled *)
          else if (hd 0 r =? 45) && negb (hd 93 (tl r) =? 93) then                (* a-b, unless the dash ends the class *)
            let b := hd 0 (tl r) in
            if (b <? a) || (b =? 91) || (b =? 92) then None
            else match p_class f (tl (tl r)) with None => None | Some (q, t) => Some (c_or (c_range a b) q, t) end
          else match p_class f r with None => None | Some (q, t) => Some (c_or (c_lit a) q, t) end
      end
  end.
(** a decimal number, up to the character that is none *)
Fixpoint p_num (acc : nat) (s : list Z) : nat * list Z :=
  match s with
  | c :: r => if (48 <=? c) && (c <=? 57) then p_num (10 * acc + Z.to_nat (c - 48)) r else (acc, s)
  | [] => (acc, s)
  end.
Definition is_digit (c : Z) : bool := (48 <=? c) && (c <=? 57).
(** a number with at least one digit and no leading zero (regexp/syntax: parseInt) *)
Definition p_int (s : list Z) : option (nat * list Z) :=
  if is_digit (hd 0 s) && negb ((hd 0 s =? 48) && is_digit (hd 0 (tl s))) then Some (p_num 0 s) else None.
(** The repetition after a single-character expression (regexp/syntax: parse, repeat). *)
Definition p_rep (p : Z -> bool) (s : list Z) : option (list item * list Z) :=
  match s with
  | [] => Some ([One p], [])
  | c :: r =>
      if c =? 43 then Some ([One p; Many p], r)                                       (* + *)
      else if c =? 42 then Some ([Many p], r)                                         (* * *)
      else if c =? 63 then Some ([Opt p], r)                                          (* ? *)
      else if c =? 123 then                                                           (* {n} {n,} {n,m} *)
        match p_int r with
        | None => None
        | Some (n, t) =>
            if negb (Nat.leb n 1000) then None
            else if hd 0 t =? 125 then Some (repeat (One p) n, tl t)
            else if negb (hd 0 t =? 44) then None
            else if hd 0 (tl t) =? 125 then Some (repeat (One p) n ++ [Many p], tl (tl t))
            else match p_int (tl t) with
                 | None => None
                 | Some (m, u) => if Nat.leb n m && Nat.leb m 1000 && (hd 0 u =? 125) then Some (repeat (One p) n ++ repeat (Opt p) (m - n), tl u) else None
                 end
        end
      else Some ([One p], s)
  end.
Definition is_punct (c : Z) : bool := (33 <=? c) && (c <=? 47) || (58 <=? c) && (c <=? 64) || (91 <=? c) && (c <=? 96) || (123 <=? c) && (c <=? 126).
Definition c_digit : Z -> bool := c_range 48 57.
Definition c_word : Z -> bool := c_or c_digit (c_or (c_range 97 122) (c_or (c_range 65 90) (c_lit 95))).
Definition c_space : Z -> bool := c_or (c_lit 9) (c_or (c_lit 10) (c_or (c_lit 12) (c_or (c_lit 13) (c_lit 32)))).
Definition c_not (p : Z -> bool) : Z -> bool := fun r => negb (p r).
(** After a backslash (regexp/syntax: parseEscape, maybeParsePerlCharClass). *)
Definition p_escape (c : Z) : option (Z -> bool) :=
  if is_punct c then Some (c_lit c)
  else if c =? 100 then Some c_digit else if c =? 68 then Some (c_not c_digit)
  else if c =? 119 then Some c_word else if c =? 87 then Some (c_not c_word)
  else if c =? 115 then Some c_space else if c =? 83 then Some (c_not c_space)
  else None.
(** A single-character expression and what follows it. *)
Definition p_single (s : list Z) : option ((Z -> bool) * list Z) :=
  match s with
  | [] => None
  | c :: r =>
      if c =? 91 then
        let neg := hd 0 r =? 94 in
        let r1 := if neg then tl r else r in
        if hd 0 r1 =? 93 then None                                                     (* a class that begins with ] : not modelled *)
        else match p_class (length r1) r1 with None => None | Some (p, t) => Some (if neg then c_not p else p, t) end
      else if c =? 92 then match p_escape (hd 0 r) with None => None | Some p => Some (p, tl r) end
      else if existsb (Z.eqb c) [36; 40; 41; 42; 43; 63; 93; 94; 123; 124; 125] then None
      else if c =? 46 then Some (c_any, r)
      else Some (c_lit c, r)
  end.
(** The whole pattern: the items and whether it ends in $. *)
Fixpoint p_items (fuel : nat) (s : list Z) : option (list item * bool) :=
  match fuel with
  | O => None
  | S f =>
      match s with
      | [] => Some ([], false)
      | [36] => Some ([], true)                                                   (* $ *)
      | _ =>
          match p_single s with
          | None => None
          | Some (p, r) => match p_rep p r with
                           | None => None
                           | Some (i, t) => match p_items f t with None => None | Some (is, e) => Some (i ++ is, e) end
                           end
          end
      end
  end.
Record pat := Pat { from_start : bool; its : list item; to_end : bool }.
Definition compile_runes (s : list Z) : option pat :=
  let a := hd 0 s =? 94 in
  match p_items (S (length s)) (if a then tl s else s) with None => None | Some (i, e) => Some (Pat a i e) end.
(* regexp.MustCompile, validator.go:67, 85 *)
Definition compile (text : list Z) : option pat :=
  let s := runes_of text in if existsb (Z.eqb 65533) s then None else compile_runes s.

(** Does the text begin with a match after which [k] accepts the rest? *)
Fixpoint many (p : Z -> bool) (k : list Z -> bool) (s : list Z) : bool :=
  k s || match s with [] => false | c :: r => p c && many p k r end.
Fixpoint begins (i : list item) (k : list Z -> bool) : list Z -> bool :=
  match i with
  | [] => k
  | One p :: i' => fun s => match s with [] => false | c :: r => p c && begins i' k r end
  | Opt p :: i' => fun s => begins i' k s || match s with [] => false | c :: r => p c && begins i' k r end
  | Many p :: i' => many p (begins i' k)
  end.
Fixpoint anywhere (f : list Z -> bool) (s : list Z) : bool := f s || match s with [] => false | _ :: r => anywhere f r end.
(* (Regexp).MatchString, validator.go:75, 93 *)
Definition match_string (p : pat) (s : list Z) : bool :=
  let f := begins (its p) (fun r => negb (to_end p) || match r with [] => true | _ => false end) in
  if from_start p then f (runes_of s) else anywhere f (runes_of s).

(* validator.go:67 *)
Definition email_text : list Z := ascii "^[a-zA-Z0-9._%+-]+@[a-zA-Z0-9.-]+\.[a-zA-Z]{2,}$".
Definition e_email : err := ascii "invalid email format".
Definition e_pattern : err := ascii "invalid format".
(* 84-101, once the pattern has been compiled *)
Definition pattern (p : pat) : validator := fun v => match v with VStr s => if match_string p s then None else Some e_pattern | _ => Some e_type end.
(* 65-81; None: the pattern is not in the modelled language (it is: C322_email_modelled) *)
Definition email : option validator :=
  match compile email_text with
  | None => None
  | Some p => Some (fun v => match v with VStr s => if match_string p s then None else Some e_email | _ => Some e_type end)
  end.
