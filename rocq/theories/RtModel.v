(** Model of clipboard/internal/domain/service/richtext_codec.go and clipboard/internal/domain/value/text_styles.go, the functions behind
    Clipboard.ConvertHTMLToRTF, ConvertRTFToHTML, ReadHTMLAsPlainText, ReadRTFAsPlainText and the manager's styled text calls, with the parts
    of the Go packages html, regexp, strings and fmt they use. Strings are lists of bytes; the regular expressions only test ASCII
    characters, so matching bytes is matching runes. *)
From Coq Require Export Ascii String.
From Verif Require Export Prelude Utf8.
Local Open Scope list_scope.
Local Open Scope Z_scope.

Fixpoint str (s : string) : list Z := match s with EmptyString => [] | String a r => Z.of_nat (nat_of_ascii a) :: str r end.
Definition B (s : string) : list Z := Eval cbv in str s.

(* ---------- searching (package strings, package regexp) ---------- *)
Fixpoint prefix (p s : list Z) : bool := match p, s with [], _ => true | a :: p', b :: s' => (a =? b) && prefix p' s' | _ :: _, [] => false end.
(* strings.Contains *)
Fixpoint contains (p s : list Z) : bool := prefix p s || match s with [] => false | _ :: r => contains p r end.
(* strings.TrimPrefix *)
Definition trim_prefix (p s : list Z) : list Z := if prefix p s then skipn (length p) s else s.
(* the leftmost match of an expression; [m] matches at the start of its argument *)
Fixpoint first_match {A} (m : list Z -> option A) (s : list Z) : option A :=
  match m s with Some a => Some a | None => match s with [] => None | _ :: r => first_match m r end end.
(* ReplaceAll with the empty string; [m] gives the length of a match, at least 1, at the start of its argument *)
Fixpoint cut (m : list Z -> option nat) (skip : nat) (s : list Z) : list Z :=
  match s with
  | [] => []
  | c :: r => match skip with S k => cut m k r | O => match m s with Some n => cut m (pred n) r | None => c :: cut m 0 r end end
  end.
(* a literal *)
Definition lit (p s : list Z) : option nat := if prefix p s then Some (length p) else None.
(* the longest prefix of characters in a class: its length *)
Fixpoint run (p : Z -> bool) (s : list Z) : nat := match s with c :: r => if p c then S (run p r) else 0%nat | [] => 0%nat end.

Definition is_hex (c : Z) : bool := is_digit c || ((65 <=? c) && (c <=? 70)) || ((97 <=? c) && (c <=? 102)).
Definition is_lower (c : Z) : bool := (97 <=? c) && (c <=? 122).
Definition is_alnum (c : Z) : bool := is_lower c || ((65 <=? c) && (c <=? 90)) || is_digit c.
(* \s in package regexp *)
Definition re_space (c : Z) : bool := (c =? 9) || (c =? 10) || (c =? 12) || (c =? 13) || (c =? 32).

(* ---------- text_styles.go ---------- *)
(* :11-16; no colour is the empty string *)
Record styles := St { bold : bool; italic : bool; underline : bool; color : list Z }.
(* :19-26 *)
Definition plain : styles := St false false false [].
(* :91-93 *)
Definition is_plain (s : styles) : bool := negb (bold s) && negb (italic s) && negb (underline s) && match color s with [] => true | _ => false end.
(* :127-137 *)
Definition valid_color (c : list Z) : bool := match c with 35 :: ds => (length ds =? 6)%nat && forallb is_hex ds | _ => false end.
Definition hexval (c : Z) : Z := if is_digit c then c - 48 else if c <=? 70 then c - 55 else c - 87.
(* :141-158, after validation *)
Definition parse_rgb (c : list Z) : Z * Z * Z :=
  let v := fold_left (fun a d => 16 * a + hexval d) (tl c) 0 in (Z.land (Z.shiftr v 16) 255, Z.land (Z.shiftr v 8) 255, Z.land v 255).
Definition hexdigit (v : Z) : Z := if v <? 10 then 48 + v else 55 + v.
(* :161-168 *)
Definition format_rgb (r g b : Z) : option (list Z) :=
  if (r <? 0) || (255 <? r) || (g <? 0) || (255 <? g) || (b <? 0) || (255 <? b) then None
  else Some (35 :: flat_map (fun v => [hexdigit (v / 16); hexdigit (v mod 16)]) [r; g; b]).

(* ---------- package html ---------- *)
(* html.EscapeString *)
Definition esc_byte (c : Z) : list Z :=
  if c =? 38 then B "&amp;" else if c =? 39 then B "&#39;" else if c =? 60 then B "&lt;" else if c =? 62 then B "&gt;" else if c =? 34 then B "&#34;" else [c].
Definition escape (t : list Z) : list Z := flat_map esc_byte t.
(* the replacement table for the code points 0x80-0x9F *)
Definition win1252 : list Z :=
  [8364; 129; 8218; 402; 8222; 8230; 8224; 8225; 710; 8240; 352; 8249; 338; 141; 381; 143; 144; 8216; 8217; 8220; 8221; 8226; 8211; 8212; 732; 8482; 353; 8250; 339; 157; 382; 376].
Definition ref_rune (x : Z) : Z :=
  if (128 <=? x) && (x <=? 159) then nth (Z.to_nat (x - 128)) win1252 0
  else if (x =? 0) || ((55296 <=? x) && (x <=? 57343)) || (1114111 <? x) then 65533 else x.
(* rune arithmetic wraps at 32 bits *)
Definition wrap32 (x : Z) : Z := (x + 2147483648) mod 4294967296 - 2147483648.
(* utf8.EncodeRune *)
Definition encode_rune (x : Z) : list Z := enc_rune (if scalarb x then x else 65533).
Section Entities.
(* the table of named entities (html/entity.go), names with their semicolon if they have one; the empty list for a name that is not in it.
   Only the three that EscapeString writes are fixed here. *)
Variable others : list Z -> list Z.
Definition entity (name : list Z) : list Z :=
  if list_eqb name (B "amp;") then [38] else if list_eqb name (B "lt;") then [60] else if list_eqb name (B "gt;") then [62] else others name.
(* the longest known name of at most six characters without semicolon at the start of [name]: the loop "for j := maxLen; j > 1; j--" *)
Fixpoint shorter (name : list Z) (j : nat) : option (nat * list Z) :=
  match j with O | S O => None | S k => match entity (firstn j name) with [] => shorter name k | x => Some (j, x) end end.
(* html.unescapeEntity: what the reference at the start of s (after its '&') becomes and how many bytes it takes, the '&' included *)
Definition unescape_entity (s : list Z) : list Z * nat :=
  match s with
  | [] => ([38], 1%nat)
  | 35 :: s1 =>
    if (length s1 <=? 1)%nat then ([38], 1%nat) else
    let hex := match s1 with c :: _ => (c =? 120) || (c =? 88) | [] => false end in
    let s2 := if hex then tl s1 else s1 in
    let n := run (if hex then is_hex else is_digit) s2 in
    let semi := match skipn n s2 with 59 :: _ => 1%nat | _ => 0%nat end in
    let i := (2 + (if hex then 1 else 0) + n + semi)%nat in
    if (i <=? 3)%nat then ([38], 1%nat)
    else (encode_rune (ref_rune (fold_left (fun a d => wrap32 ((if hex then 16 else 10) * a + hexval d)) (firstn n s2) 0)), i)
  | _ =>
    let n := run is_alnum s in
    let semi := match skipn n s with 59 :: _ => 1%nat | _ => 0%nat end in
    let name := firstn (n + semi) s in
    match name with
    | [] => ([38], 1%nat)
    | _ => match entity name with
           | [] => match shorter name (Nat.min 6 (length name - 1)) with Some (j, x) => (x, S j) | None => (38 :: name, S (length name)) end
           | x => (x, S (length name))
           end
    end
  end.
(* html.UnescapeString *)
Fixpoint unescape (skip : nat) (s : list Z) : list Z :=
  match s with
  | [] => []
  | c :: r => match skip with
              | S k => unescape k r
              | O => if c =? 38 then let '(x, n) := unescape_entity r in x ++ unescape (pred n) r else c :: unescape 0 r
              end
  end.

(* ---------- richtext_codec.go: HTML ---------- *)
(* :24-52 *)
Definition encode_html (t : list Z) (s : styles) : list Z :=
  match t with [] => [] | _ =>
    let e := escape t in
    if is_plain s then e else
    let e := if bold s then B "<strong>" ++ e ++ B "</strong>" else e in
    let e := if italic s then B "<em>" ++ e ++ B "</em>" else e in
    let e := if underline s then B "<u>" ++ e ++ B "</u>" else e in
    match color s with [] => e | c => B "<span style=""color:" ++ c ++ B """>" ++ e ++ B "</span>" end
  end.
(* :108: <[^>]*> *)
Definition tag (s : list Z) : option nat := match s with 60 :: r => let n := run (fun c => negb (c =? 62)) r in match skipn n r with 62 :: _ => Some (2 + n)%nat | _ => None end | _ => None end.
(* :102-115 *)
Definition strip_html (h : list Z) : list Z := unescape 0 (cut tag 0 h).
(* :81: style="color:\s*(#[0-9A-Fa-f]{6})" *)
Definition html_color (s : list Z) : option (list Z) :=
  let p := B "style=""color:" in
  if prefix p s then
    let r := skipn (length p) s in let r := skipn (run re_space r) r in let c := firstn 7 r in
    if valid_color c && prefix [34] (skipn 7 r) then Some c else None
  else None.
(* :57-98; it never fails, since the matched colour is valid *)
Definition decode_html (h : list Z) : list Z * styles :=
  match h with [] => ([], plain) | _ =>
    (strip_html h, St (contains (B "<strong>") h || contains (B "<b>") h) (contains (B "<em>") h || contains (B "<i>") h) (contains (B "<u>") h)
                      (match first_match html_color h with Some c => c | None => [] end))
  end.
End Entities.

(* ---------- richtext_codec.go: RTF ---------- *)
(* :316-343, on the runes of the text *)
Definition rtf_rune (r : Z) : list Z :=
  if r =? 92 then B "\\" else if r =? 123 then B "\{" else if r =? 125 then B "\}" else if r =? 10 then B "\line" ++ [10] else if r =? 13 then []
  else if 127 <? r then B "\u" ++ dec r ++ B "?" else [r].
Definition rtf_escape (t : list Z) : list Z := flat_map rtf_rune (runes_of t).
Definition rtf_header : list Z := B "{\rtf1\ansi\deff0".
(* :119-174; None when the colour is not valid *)
Definition encode_rtf (t : list Z) (s : styles) : option (list Z) :=
  match t with [] => Some [] | _ =>
    let body := (if bold s then B "\b " else []) ++ (if italic s then B "\i " else []) ++ (if underline s then B "\ul " else []) ++
                (match color s with [] => [] | _ => B "\cf1 " end) ++ rtf_escape t ++
                (if bold s then B "\b0 " else []) ++ (if italic s then B "\i0 " else []) ++ (if underline s then B "\ul0 " else []) ++
                (match color s with [] => [] | _ => B "\cf0 " end) ++ [10] ++ B "}" in
    match color s with
    | [] => Some (rtf_header ++ [10] ++ body)
    | c => if valid_color c then let '(r, g, b) := parse_rgb c in
             Some (rtf_header ++ [10] ++ B "{\colortbl ;\red" ++ dec r ++ B "\green" ++ dec g ++ B "\blue" ++ dec b ++ B ";}" ++ [10] ++ body)
           else None
    end
  end.
(* fmt.Sscanf(s, "%d", &r) on digits: nothing is stored on overflow *)
Definition scan_int (ds : list Z) : Z := let v := undec_acc 0 ds in if v <? 9223372036854775808 then v else 0.
(* one or more digits at the start: the digits and the rest *)
Definition digits_then (s : list Z) : option (list Z * list Z) := match run is_digit s with O => None | n => Some (firstn n s, skipn n s) end.
Definition after (p s : list Z) : option (list Z) := if prefix p s then Some (skipn (length p) s) else None.
(* :207: \\colortbl\s*;\\red(\d+)\\green(\d+)\\blue(\d+); *)
Definition rtf_color (s : list Z) : option (Z * Z * Z) :=
  match after (B "\colortbl") s with None => None | Some s1 =>
  match after (B ";\red") (skipn (run re_space s1) s1) with None => None | Some s2 =>
  match digits_then s2 with None => None | Some (r, s3) => match after (B "\green") s3 with None => None | Some s4 =>
  match digits_then s4 with None => None | Some (g, s5) => match after (B "\blue") s5 with None => None | Some s6 =>
  match digits_then s6 with None => None | Some (b, s7) => if prefix (B ";") s7 then Some (scan_int r, scan_int g, scan_int b) else None
  end end end end end end end.
(* :243: \{\\colortbl[^}]*\} *)
Definition color_table (s : list Z) : option nat :=
  let p := B "{\colortbl" in
  if prefix p s then let r := skipn (length p) s in let n := run (fun c => negb (c =? 125)) r in match skipn n r with 125 :: _ => Some (length p + n + 1)%nat | _ => None end else None.
(* :257: \\cf\d+ *)
Definition cf (s : list Z) : option nat :=
  if prefix (B "\cf") s then match run is_digit (skipn 3 s) with O => None | n => if prefix [32] (skipn (3 + n) s) then Some (4 + n)%nat else None end else None.
(* :260: \\[a-z]+\d*\s* *)
Definition control (s : list Z) : option nat :=
  match s with
  | 92 :: r => match run is_lower r with O => None | n => let m := run is_digit (skipn n r) in Some (1 + n + m + run re_space (skipn (n + m) r))%nat end
  | _ => None
  end.
(* strings.TrimSpace: the white space characters at the start or (reversed) at the end, as their UTF-8 bytes *)
Definition space_at (s : list Z) : nat :=
  match s with
  | a :: r => if ((9 <=? a) && (a <=? 13)) || (a =? 32) then 1%nat else
    match r with
    | b :: r2 => if (a =? 194) && ((b =? 133) || (b =? 160)) then 2%nat else
      match r2 with
      | c :: _ => if ((a =? 225) && (b =? 154) && (c =? 128)) ||
                     ((a =? 226) && (b =? 128) && (((128 <=? c) && (c <=? 138)) || (c =? 168) || (c =? 169) || (c =? 175))) ||
                     ((a =? 226) && (b =? 129) && (c =? 159)) || ((a =? 227) && (b =? 128) && (c =? 128)) then 3%nat else 0%nat
      | [] => 0%nat
      end
    | [] => 0%nat
    end
  | [] => 0%nat
  end.
Definition space_end (s : list Z) : nat :=
  match s with
  | a :: r => if ((9 <=? a) && (a <=? 13)) || (a =? 32) then 1%nat else
    match r with
    | b :: r2 => if (space_at [b; a] =? 2)%nat then 2%nat else match r2 with c :: _ => if (space_at [c; b; a] =? 3)%nat then 3%nat else 0%nat | [] => 0%nat end
    | [] => 0%nat
    end
  | [] => 0%nat
  end.
Fixpoint trim (at_ : list Z -> nat) (skip : nat) (s : list Z) : list Z :=
  match s with [] => [] | c :: r => match skip with S k => trim at_ k r | O => match at_ s with S k => trim at_ k r | O => s end end end.
Definition trim_space (s : list Z) : list Z := rev (trim space_end 0 (rev (trim space_at 0 s))).
(* :234-271 *)
Definition strip_rtf (s : list Z) : list Z :=
  let s := cut color_table 0 s in
  let s := trim_prefix [10] (trim_prefix rtf_header s) in
  let s := cut (lit (B "\b ")) 0 s in let s := cut (lit (B "\b0 ")) 0 s in
  let s := cut (lit (B "\i ")) 0 s in let s := cut (lit (B "\i0 ")) 0 s in
  let s := cut (lit (B "\ul ")) 0 s in let s := cut (lit (B "\ul0 ")) 0 s in
  let s := cut cf 0 s in let s := cut control 0 s in
  let s := cut (lit (B "{")) 0 s in let s := cut (lit (B "}")) 0 s in
  trim_space s.
(* :179-231 *)
Definition decode_rtf (s : list Z) : option (list Z * styles) :=
  match s with [] => Some ([], plain) | _ =>
    if prefix (B "{\rtf") (trim_space s) then
      let st := St (contains (B "\b ") s) (contains (B "\i ") s) (contains (B "\ul ") s) in
      match first_match rtf_color s with
      | None => Some (strip_rtf s, st [])
      | Some (r, g, b) => match format_rgb r g b with Some c => Some (strip_rtf s, st c) | None => None end
      end
    else None
  end.
(* :274-313 *)
Definition html_to_rtf (others : list Z -> list Z) (h : list Z) : option (list Z) :=
  match h with [] => Some [] | _ => let '(t, s) := decode_html others h in encode_rtf t s end.
Definition rtf_to_html (r : list Z) : option (list Z) :=
  match r with [] => Some [] | _ => match decode_rtf r with Some (t, s) => Some (encode_html t s) | None => None end end.
