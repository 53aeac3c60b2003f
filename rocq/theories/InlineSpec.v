(** Specification vocabulary for styled lines (C11, C12): a line is a list of visible
    characters and escape sequences. *)
From Verif Require Import Prelude Utf8.

Inductive item :=
| Ch (c : Z)                                  (* a visible character *)
| SCsi (params : list Z) (final : Z)           (* ESC [ params final, e.g. colours *)
| SOscBel (body : list Z)                      (* ESC ] body BEL *)
| SOscSt (body : list Z)                       (* ESC ] body ESC \ , e.g. hyperlinks *)
| SEsc2 (c : Z).                               (* two-byte escape *)

Definition item_ok (i : item) : Prop :=
  match i with
  | Ch c => scalar c /\ c <> 27
  | SCsi ps f => 64 <= f <= 126 /\ Forall (fun b => 0 <= b < 64 \/ 126 < b) ps
  | SOscBel b | SOscSt b => Forall (fun x => x <> 7 /\ x <> 27) b
  | SEsc2 c => 0 <= c < 128 /\ c <> 91 /\ c <> 93
  end.

Definition item_bytes (i : item) : list Z :=
  match i with
  | Ch c => enc_rune c
  | SCsi ps f => 27 :: 91 :: ps ++ [f]
  | SOscBel b => 27 :: 93 :: b ++ [7]
  | SOscSt b => 27 :: 93 :: b ++ [27; 92]
  | SEsc2 c => [27; c]
  end.
Definition line_bytes (l : list item) : list Z := flat_map item_bytes l.

Definition item_chars (i : item) : list Z := match i with Ch c => [c] | _ => [] end.
(** The text a reader sees. *)
Definition visible (l : list item) : list Z := flat_map item_chars l.

Section Width.
Variable cw : Z -> Z.      (* columns of a character *)
Definition cols (s : list Z) : Z := fold_right (fun c a => cw c + a) 0 s.

(** Cutting a line to [room] columns: characters are kept while they fit, escape
    sequences before the cut are kept whole. *)
Fixpoint cut (room : Z) (l : list item) : list item :=
  match l with
  | [] => []
  | Ch c :: r => if room <? cw c then [] else Ch c :: cut (room - cw c) r
  | e :: r => e :: cut room r
  end.
End Width.

(** Calls made on an inline renderer, with views as lists of styled lines. *)
Inductive scall := SRender (v : list (list item)) | SRepaint | SResize (w h : Z).

Fixpoint join_nl (ls : list (list Z)) : list Z :=
  match ls with
  | [] => []
  | [l] => l
  | l :: r => l ++ 10 :: join_nl r
  end.
Definition view_bytes (v : list (list item)) : list Z := join_nl (map line_bytes v).

(** The last [h] lines (all of them if [h] is 0: unknown height). *)
Definition keep {A} (h : Z) (v : list A) : list A :=
  if (0 <? h) && (h <? Z.of_nat (length v)) then skipn (length v - Z.to_nat h) v else v.
(** A line cut to the width (0: unknown width). *)
Definition fitted (cw : Z -> Z) (w : Z) (l : list item) : list item := if 0 <? w then cut cw w l else l.

(** What should be on screen after the calls: the lines of the last view, with the sizes
    in force when it was rendered. *)
Fixpoint displayed (cw : Z -> Z) (w h : Z) (cur : list (list item)) (cs : list scall) : list (list item) :=
  match cs with
  | [] => cur
  | SRender v :: r => displayed cw w h (map (fitted cw w) (keep h v)) r
  | SRepaint :: r => displayed cw w h cur r
  | SResize w' h' :: r => displayed cw w' h' cur r
  end.

(** Blocks of double-width characters (Unicode East Asian Width W and F): Hangul Jamo initials,
    CJK radicals up to the ideographic iteration marks, Hiragana, Katakana, Bopomofo and Hangul
    compatibility Jamo, CJK unified ideographs (extension A and the main block), Hangul
    syllables, compatibility ideographs, fullwidth forms, the emoji blocks, the supplementary
    ideographic planes. *)
Definition double_width (c : Z) : Prop :=
  4352 <= c <= 4447 \/ 11904 <= c <= 12287 \/ 12288 <= c <= 12350 \/ 12353 <= c <= 12447 \/ 12448 <= c <= 12543 \/
  12544 <= c <= 12591 \/ 12592 <= c <= 12687 \/ 13312 <= c <= 19903 \/ 19968 <= c <= 40959 \/
  44032 <= c <= 55203 \/ 63744 <= c <= 64255 \/ 65281 <= c <= 65376 \/ 65504 <= c <= 65510 \/
  127744 <= c <= 128591 \/ 128640 <= c <= 128767 \/ 129280 <= c <= 129535 \/ 131072 <= c <= 196605 \/ 196608 <= c <= 262141.
(** Printable characters of scripts that take one column: ASCII, Latin, Greek, Cyrillic,
    Hebrew and Arabic letters, box drawing and block elements. *)
Definition single_width (c : Z) : Prop :=
  32 <= c <= 126 \/ 160 <= c <= 591 /\ c <> 173 \/ 880 <= c <= 1154 \/ 1488 <= c <= 1514 \/ 1569 <= c <= 1610 \/ 9472 <= c <= 9727.
