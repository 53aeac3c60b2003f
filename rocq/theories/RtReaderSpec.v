(** How a program that follows the Rich Text Format specification (version 1.9) reads a document, for the parts of the language that occur in
    practice in plain documents: groups, control words with their numbers and delimiter, escaped symbols, Unicode characters with one
    substitute, line and paragraph breaks, bold, italic, underline, the colour table, and destinations without text. Written from the
    specification, byte by byte, without looking at the code of the library. Left out: \' (bytes of the code page). *)
From Coq Require Import String.
From Verif Require Import Prelude RtModel.
Local Open Scope list_scope.
Local Open Scope Z_scope.

(** The formatting in force; [fc] is an index in the colour table, 0 for the default colour. *)
Record fmt := F { fb : bool; fi : bool; fu : bool; fc : Z }.
Inductive mode := MText | MSlash | MWord (w : list Z) | MNum (w : list Z) (neg : bool) (v : Z).
(** [dest]: in a destination that shows nothing; [intab]: in the colour table; [skip]: substitutes still to be skipped. *)
Record rd := R { rmode : mode; rfmt : fmt; dest : bool; intab : bool; stack : list (fmt * bool * bool); rgb : Z * Z * Z; tab : list (Z * Z * Z); skip : nat; out : list (Z * fmt) }.
Definition rd0 : rd := R MText (F false false false 0) false false [] (0, 0, 0) [] 0 [].
Definition set_mode (m : mode) (s : rd) : rd := R m (rfmt s) (dest s) (intab s) (stack s) (rgb s) (tab s) (skip s) (out s).
Definition set_fmt (f : fmt) (s : rd) : rd := R (rmode s) f (dest s) (intab s) (stack s) (rgb s) (tab s) (skip s) (out s).
Definition set_rgb (x : Z * Z * Z) (s : rd) : rd := R (rmode s) (rfmt s) (dest s) (intab s) (stack s) x (tab s) (skip s) (out s).
Definition set_dest (t : bool) (s : rd) : rd := R (rmode s) (rfmt s) true t (stack s) (rgb s) (tab s) (skip s) (out s).
(** A character: skipped after a Unicode character; a semicolon ends an entry of the colour table; otherwise shown. *)
Definition emit (c : Z) (s : rd) : rd :=
  match skip s with
  | S k => R (rmode s) (rfmt s) (dest s) (intab s) (stack s) (rgb s) (tab s) k (out s)
  | O => if dest s then if intab s && (c =? 59) then R (rmode s) (rfmt s) true true (stack s) (0, 0, 0) (tab s ++ [rgb s]) 0 (out s) else s
         else R (rmode s) (rfmt s) false (intab s) (stack s) (rgb s) (tab s) 0 (out s ++ [(c, rfmt s)])
  end.
Definition one_skip (s : rd) : rd := R (rmode s) (rfmt s) (dest s) (intab s) (stack s) (rgb s) (tab s) 1 (out s).
Definition on (n : option Z) : bool := match n with Some 0 => false | _ => true end.
(** A control word with its number, if any. Unknown words mean nothing. *)
Definition ctrl (w : list Z) (n : option Z) (s : rd) : rd :=
  let f := rfmt s in let is x := list_eqb w x in let v := match n with Some v => v | None => 0 end in
  match skip s with
  | S k => R (rmode s) (rfmt s) (dest s) (intab s) (stack s) (rgb s) (tab s) k (out s)
  | O =>
    if is (B "b") then set_fmt (F (on n) (fi f) (fu f) (fc f)) s
    else if is (B "i") then set_fmt (F (fb f) (on n) (fu f) (fc f)) s
    else if is (B "ul") then set_fmt (F (fb f) (fi f) (on n) (fc f)) s
    else if is (B "ulnone") then set_fmt (F (fb f) (fi f) false (fc f)) s
    else if is (B "cf") then set_fmt (F (fb f) (fi f) (fu f) v) s
    else if is (B "plain") then set_fmt (F false false false 0) s
    else if is (B "line") || is (B "par") then emit 10 s
    else if is (B "tab") then emit 9 s
    else if is (B "u") then one_skip (emit (v mod 65536) s)
    else if is (B "colortbl") then set_dest true s
    else if is (B "fonttbl") || is (B "stylesheet") || is (B "info") || is (B "pict") then set_dest false s
    else if is (B "red") then (let '(_, g, b) := rgb s in set_rgb (v, g, b) s)
    else if is (B "green") then (let '(r, _, b) := rgb s in set_rgb (r, v, b) s)
    else if is (B "blue") then (let '(r, g, _) := rgb s in set_rgb (r, g, v) s)
    else s
  end.
Definition text_step (s : rd) (c : Z) : rd :=
  if c =? 92 then set_mode MSlash s
  else if c =? 123 then R MText (rfmt s) (dest s) (intab s) ((rfmt s, dest s, intab s) :: stack s) (rgb s) (tab s) 0 (out s)
  else if c =? 125 then match stack s with (f, d, t) :: st => R MText f d t st (rgb s) (tab s) 0 (out s) | [] => s end
  else if (c =? 10) || (c =? 13) then s
  else emit c s.
Definition letter (c : Z) : bool := ((97 <=? c) && (c <=? 122)) || ((65 <=? c) && (c <=? 90)).
(** The end of a control word: a space belongs to it, anything else does not. *)
Definition delimit (s : rd) (c : Z) : rd := if c =? 32 then s else text_step s c.
Definition step (s : rd) (c : Z) : rd :=
  match rmode s with
  | MText => text_step s c
  | MSlash => if letter c then set_mode (MWord [c]) s
              else if (c =? 92) || (c =? 123) || (c =? 125) then emit c (set_mode MText s)
              else if c =? 42 then set_dest false (set_mode MText s)
              else set_mode MText s
  | MWord w => if letter c then set_mode (MWord (w ++ [c])) s
               else if c =? 45 then set_mode (MNum w true 0) s
               else if is_digit c then set_mode (MNum w false (c - 48)) s
               else delimit (ctrl w None (set_mode MText s)) c
  | MNum w neg v => if is_digit c then set_mode (MNum w neg (v * 10 + (c - 48))) s
                    else delimit (ctrl w (Some (if neg then - v else v)) (set_mode MText s)) c
  end.
(** What is shown: each character with bold, italic, underline and its colour. *)
Definition shown (s : rd) : list (Z * (bool * bool * bool * option (Z * Z * Z))) :=
  map (fun x => (fst x, (fb (snd x), fi (snd x), fu (snd x), if fc (snd x) =? 0 then None else nth_error (tab s) (Z.to_nat (fc (snd x)))))) (out s).
Definition read_rtf (doc : list Z) : list (Z * (bool * bool * bool * option (Z * Z * Z))) := shown (fold_left step doc rd0).
