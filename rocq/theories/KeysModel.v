(** Model of tea's keyboard input: tea/internal/domain/model/msg.go (key types),
    tea/internal/infrastructure/ansi/parser.go (ParseKey) and
    tea/internal/infrastructure/input/reader.go (Reader.Read over bufio.Reader). *)
From Verif Require Import Prelude Utf8.

(* msg.go:19-52 *)
Inductive keytype :=
| KRune | KEnter | KBackspace | KTab | KEsc | KSpace | KUp | KDown | KLeft | KRight
| KHome | KEnd | KPgUp | KPgDown | KDelete | KInsert
| KF1 | KF2 | KF3 | KF4 | KF5 | KF6 | KF7 | KF8 | KF9 | KF10 | KF11 | KF12 | KCtrlC.

(* msg.go:55-61 *)
Record keymsg := Key { ktype : keytype; krune : Z; kalt : bool; kctrl : bool; kshift : bool }.

Definition plain (k : keytype) : keymsg := Key k 0 false false false.
Definition rune_key (r : Z) : keymsg := Key KRune r false false false.
Definition ctrl_key (r : Z) : keymsg := Key KRune r false true false.

Definition nthb (l : list Z) (i : nat) : Z := nth i l 0.

(* parser.go:35-73, one byte *)
Definition parse1 (b : Z) : option keymsg :=
  if (b =? 13) || (b =? 10) then Some (plain KEnter)
  else if b =? 127 then Some (plain KBackspace)
  else if b =? 8 then Some (plain KBackspace)
  else if b =? 9 then Some (plain KTab)
  else if b =? 27 then Some (plain KEsc)
  else if b =? 32 then Some (plain KSpace)
  else if (1 <=? b) && (b <=? 26) && negb (b =? 8) && negb (b =? 9) && negb (b =? 10) && negb (b =? 13)
  then Some (ctrl_key (97 + b - 1))
  else if (32 <=? b) && (b <=? 126) then Some (rune_key b)
  else None.

(* parser.go:78-89 *)
Definition parse_arrow (c : Z) : option keymsg :=
  if c =? 65 then Some (plain KUp) else if c =? 66 then Some (plain KDown)
  else if c =? 67 then Some (plain KRight) else if c =? 68 then Some (plain KLeft) else None.

(* parser.go:92-103 *)
Definition parse_ss3 (c : Z) : option keymsg :=
  if c =? 80 then Some (plain KF1) else if c =? 81 then Some (plain KF2)
  else if c =? 82 then Some (plain KF3) else if c =? 83 then Some (plain KF4) else None.

(* parser.go:107-141 *)
Definition parse_tilde (d : list Z) : option keymsg :=
  if list_eqb d [27; 91; 49; 126] then Some (plain KHome)
  else if list_eqb d [27; 91; 50; 126] then Some (plain KInsert)
  else if list_eqb d [27; 91; 51; 126] then Some (plain KDelete)
  else if list_eqb d [27; 91; 52; 126] then Some (plain KEnd)
  else if list_eqb d [27; 91; 53; 126] then Some (plain KPgUp)
  else if list_eqb d [27; 91; 54; 126] then Some (plain KPgDown)
  else if list_eqb d [27; 91; 49; 53; 126] then Some (plain KF5)
  else if list_eqb d [27; 91; 49; 55; 126] then Some (plain KF6)
  else if list_eqb d [27; 91; 49; 56; 126] then Some (plain KF7)
  else if list_eqb d [27; 91; 49; 57; 126] then Some (plain KF8)
  else if list_eqb d [27; 91; 50; 48; 126] then Some (plain KF9)
  else if list_eqb d [27; 91; 50; 49; 126] then Some (plain KF10)
  else if list_eqb d [27; 91; 50; 51; 126] then Some (plain KF11)
  else if list_eqb d [27; 91; 50; 52; 126] then Some (plain KF12)
  else None.

(* parser.go:144-151 *)
Definition parse_hf (c : Z) : option keymsg :=
  if c =? 72 then Some (plain KHome) else if c =? 70 then Some (plain KEnd) else None.

(** First [Some] of a sequence of early returns. *)
Definition orelse {A} (a b : option A) : option A := match a with Some _ => a | None => b end.

(* parser.go:29-155 ParseKey; [None] is (KeyMsg{}, false) *)
Definition parse_key (d : list Z) : option keymsg :=
  match d with
  | [] => None
  | [b] => parse1 b
  | _ =>
      let n := length d in
      if nthb d 0 =? 27 then
        orelse (if (n =? 3)%nat && (nthb d 1 =? 91) then parse_arrow (nthb d 2) else None)
       (orelse (if (n =? 3)%nat && (nthb d 1 =? 79) then parse_ss3 (nthb d 2) else None)
       (orelse (if (4 <=? n)%nat && (nthb d 1 =? 91) && (nthb d (n - 1) =? 126) then parse_tilde d else None)
               (if (n =? 3)%nat && (nthb d 1 =? 91) then parse_hf (nthb d 2) else None)))
      else None
  end.

(** bufio.Reader over a source that delivers the chunks one read at a time:
    buffered bytes and the chunks still to come; no more chunks is EOF.
    Simplifications: the buffer never fills up (4096 bytes against 256-byte chunks,
    cancelable_reader.go:161) and empty reads are skipped. *)
Record rstate := RS { buf : list Z; chunks : list (list Z) }.

(* bufio.Reader.ReadByte *)
Fixpoint fill_byte (cs : list (list Z)) : option (Z * rstate) :=
  match cs with
  | [] => None
  | [] :: cs' => fill_byte cs'
  | (b :: r) :: cs' => Some (b, RS r cs')
  end.
Definition read_byte (s : rstate) : option (Z * rstate) :=
  match buf s with
  | b :: r => Some (b, RS r (chunks s))
  | [] => fill_byte (chunks s)
  end.

(* bufio.Reader.ReadRune: fill while the buffered bytes are not a full rune *)
Fixpoint fill_rune (b : list Z) (cs : list (list Z)) : rstate :=
  match cs with
  | [] => RS b []
  | c :: cs' =>
      if (length b <? 4)%nat && negb (full_rune b) then fill_rune (b ++ c) cs' else RS b cs
  end.
Definition read_rune (s : rstate) : Z * rstate :=
  let s1 := fill_rune (buf s) (chunks s) in
  let '(r, n) := decode_rune (buf s1) in
  (r, RS (skipn n (buf s1)) (chunks s1)).

(* reader.go:105-107, the terminator test *)
Definition is_term (c : Z) : bool :=
  ((65 <=? c) && (c <=? 90)) || ((97 <=? c) && (c <=? 122)) || (c =? 126).

(* reader.go:95-113: up to [n] more bytes, only from the buffer *)
Fixpoint take_esc (n : nat) (b : list Z) : list Z * list Z :=
  match n, b with
  | O, _ => ([], b)
  | _, [] => ([], [])
  | S n', c :: b' =>
      if is_term c then ([c], b')
      else let '(t, rest) := take_esc n' b' in (c :: t, rest)
  end.

(* reader.go:79-149 Read. Outer [None]: EOF. Inner [None]: the nil message. *)
Definition read (s : rstate) : option (option keymsg * rstate) :=
  match read_byte s with
  | None => None
  | Some (b, s1) =>
      let '(seq, s2) :=
        if b =? 27 then let '(t, rest) := take_esc 10 (buf s1) in (b :: t, RS rest (chunks s1))
        else ([b], s1) in
      match parse_key seq with
      | Some k => Some (Some k, s2)
      | None =>
          if 128 <=? b then
            let '(r, s3) := read_rune (RS (b :: buf s2) (chunks s2)) in
            Some (Some (rune_key r), s3)
          else if (32 <=? b) && (b <=? 126) then Some (Some (rune_key b), s2)
          else Some (None, s2)
      end
  end.

(* tea/internal/application/program/program.go:561-593, the input goroutine's loop:
   messages delivered until EOF (nil messages skipped). *)
Fixpoint read_all (fuel : nat) (s : rstate) : list keymsg :=
  match fuel with
  | O => []
  | S f => match read s with
           | None => []
           | Some (None, s') => read_all f s'
           | Some (Some k, s') => k :: read_all f s'
           end
  end.

Definition pending (s : rstate) : list Z := buf s ++ concat (chunks s).

(** Everything delivered for an input that arrives as the given chunks. *)
Definition delivered (cs : list (list Z)) : list keymsg :=
  read_all (S (length (concat cs))) (RS [] cs).

(* msg.go:66-129 keyTypeName, as code points *)
Definition name_of (k : keytype) (r : Z) : list Z :=
  match k with
  | KRune => [r]
  | KEnter => [101;110;116;101;114]
  | KBackspace => [98;97;99;107;115;112;97;99;101]
  | KTab => [116;97;98] | KEsc => [101;115;99] | KSpace => [115;112;97;99;101]
  | KUp => [8593] | KDown => [8595] | KLeft => [8592] | KRight => [8594]
  | KHome => [104;111;109;101] | KEnd => [101;110;100]
  | KPgUp => [112;103;117;112] | KPgDown => [112;103;100;111;119;110]
  | KDelete => [100;101;108;101;116;101] | KInsert => [105;110;115;101;114;116]
  | KF1 => [70;49] | KF2 => [70;50] | KF3 => [70;51] | KF4 => [70;52] | KF5 => [70;53]
  | KF6 => [70;54] | KF7 => [70;55] | KF8 => [70;56] | KF9 => [70;57]
  | KF10 => [70;49;48] | KF11 => [70;49;49] | KF12 => [70;49;50]
  | KCtrlC => [99;116;114;108;43;99]
  end.

Definition is_rune_type (k : keytype) : bool := match k with KRune => true | _ => false end.
Definition is_ctrlc (k : keytype) : bool := match k with KCtrlC => true | _ => false end.

(** strings.Join(parts, "+") *)
Fixpoint join_plus (l : list (list Z)) : list Z :=
  match l with [] => [] | [a] => a | a :: r => a ++ 43 :: join_plus r end.

(* msg.go:141-166 String *)
Definition key_string (k : keymsg) : list Z :=
  if is_ctrlc (ktype k) then [99;116;114;108;43;99]
  else join_plus
    ((if kalt k then [[97;108;116]] else []) ++
     (if kctrl k then [[99;116;114;108]] else []) ++
     (if kshift k && negb (is_rune_type (ktype k)) then [[115;104;105;102;116]] else []) ++
     [name_of (ktype k) (krune k)]).
