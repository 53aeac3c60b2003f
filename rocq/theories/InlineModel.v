(** Model of tea/internal/infrastructure/renderer/inline.go. Strings are byte lists.
    Oracle: [zw r] is unicode.In(r, Mn, Me, Cf). Writes never fail; the mutex is dropped
    (every method holds it throughout). *)
From Verif Require Import Prelude Utf8.

Section Inline.
Variable zw : Z -> bool.

(* inline.go:253-302 runeDisplayWidth *)
Definition wide_ranges : list (Z * Z) :=
  [ (4352, 4447); (9001, 9002); (11904, 12350); (12352, 13311); (13312, 19903); (19968, 42191);
    (43360, 43391); (44032, 55295); (63744, 64255); (65040, 65055); (65072, 65135);
    (65280, 65376); (65504, 65510); (110592, 110847); (126980, 127183); (127744, 129535);
    (131072, 196605); (196608, 262141) ].
Definition in_ranges (r : Z) (l : list (Z * Z)) : bool :=
  existsb (fun p => (fst p <=? r) && (r <=? snd p)) l.
Definition rdw (r : Z) : Z :=
  if (r <? 32) || ((127 <=? r) && (r <? 160)) then 0
  else if in_ranges r wide_ranges then 2
  else if zw r then 0 else 1.

(** CSI body: up to and including the final byte 0x40-0x7E (inline.go:219-225, 344-351).
    Returns the consumed bytes and the rest. *)
Fixpoint take_csi (s : list Z) : list Z * list Z :=
  match s with
  | [] => ([], [])
  | c :: r => if (64 <=? c) && (c <=? 126) then ([c], r)
              else let '(p, q) := take_csi r in (c :: p, q)
  end.

(** OSC body: up to BEL, or ESC with an optional backslash (inline.go:228-241, 353-367). *)
Fixpoint take_osc (s : list Z) : list Z * list Z :=
  match s with
  | [] => ([], [])
  | c :: r => if c =? 7 then ([c], r)
              else if c =? 27 then
                match r with
                | d :: r' => if d =? 92 then ([c; d], r') else ([c], r)
                | [] => ([c], [])
                end
              else let '(p, q) := take_osc r in (c :: p, q)
  end.

(** What follows an ESC byte (inline.go:211-245 and 336-369). *)
Definition take_escape (s : list Z) : list Z * list Z :=
  match s with
  | [] => ([], [])
  | n :: r =>
      if n =? 91 then let '(p, q) := take_csi r in (n :: p, q)
      else if n =? 93 then let '(p, q) := take_osc r in (n :: p, q)
      else ([n], r)
  end.

(* inline.go:199-248 stripANSI; [fuel] bounds the iterations *)
Fixpoint strip_loop (fuel : nat) (s : list Z) : list Z :=
  match fuel, s with
  | O, _ => []
  | _, [] => []
  | S f, c :: r =>
      if c =? 27 then strip_loop f (snd (take_escape r))
      else c :: strip_loop f r
  end.
Definition strip_ansi (s : list Z) : list Z := strip_loop (length s) s.

Definition wsum (l : list Z) : Z := fold_right (fun r a => rdw r + a) 0 l.

(* inline.go:306-313 visualWidth: "range plain" decodes UTF-8 *)
Definition plain (s : list Z) : list Z :=
  runes_of (strip_ansi s).
Definition visual_width (s : list Z) : Z := wsum (plain s).

(* inline.go:389-420 decodeRune (the repository's own decoder). b&0xE0==0xC0 is
   192..223, etc.; b&(0xFF>>(size+1)) subtracts the prefix; cb&0xC0==0x80 is 128..191. *)
Definition decode2 (s : list Z) : Z * nat :=
  match s with
  | [] => (rune_error, 1%nat)    (* unreachable: i < len(s) *)
  | b :: r =>
      if b <? 128 then (b, 1%nat)
      else if (192 <=? b) && (b <=? 223) then
        match r with
        | c :: _ => if cont c then ((b - 192) * 64 + (c - 128), 2%nat) else (rune_error, 1%nat)
        | _ => (rune_error, 1%nat)
        end
      else if (224 <=? b) && (b <=? 239) then
        match r with
        | c :: d :: _ =>
            if cont c && cont d then ((b - 224) * 4096 + (c - 128) * 64 + (d - 128), 3%nat)
            else (rune_error, 1%nat)
        | _ => (rune_error, 1%nat)
        end
      else if (240 <=? b) && (b <=? 247) then
        match r with
        | c :: d :: e :: _ =>
            if cont c && cont d && cont e
            then ((b - 240) * 262144 + (c - 128) * 4096 + (d - 128) * 64 + (e - 128), 4%nat)
            else (rune_error, 1%nat)
        | _ => (rune_error, 1%nat)
        end
      else (rune_error, 1%nat)
  end.

(** strings.Builder.WriteRune: an invalid rune is written as U+FFFD. *)
Definition fix_rune (r : Z) : Z := if scalarb r then r else rune_error.
Definition write_rune (r : Z) : list Z := enc_rune (fix_rune r).

(* inline.go:324-384, the loop of truncateLine *)
Fixpoint trunc_loop (fuel : nat) (s : list Z) (width maxw : Z) : list Z :=
  match fuel, s with
  | O, _ => []
  | _, [] => []
  | S f, c :: r =>
      if c =? 27 then
        let '(p, q) := take_escape r in (c :: p) ++ trunc_loop f q width maxw
      else
        let '(ru, n) := decode2 s in
        if maxw <? width + rdw ru then []
        else write_rune ru ++ trunc_loop f (skipn n s) (width + rdw ru) maxw
  end.

(* inline.go:319-322 *)
Definition truncate_line (s : list Z) (maxw : Z) : list Z :=
  if (maxw <=? 0) || (visual_width s <=? maxw) then s
  else trunc_loop (length s) s 0 maxw.

(** strings.Split(s, "\n") *)
Fixpoint split_nl (s : list Z) : list (list Z) :=
  match s with
  | [] => [[]]
  | c :: r => if c =? 10 then [] :: split_nl r
              else match split_nl r with
                   | l :: ls => (c :: l) :: ls
                   | [] => [[c]]          (* unreachable: split_nl is never empty *)
                   end
  end.

(* inline.go:46-54 *)
Record irend := IR { iw : Z; ih : Z; last_view : list Z; last_lines : list (list Z); nrend : nat }.

(* inline.go:61-67 *)
Definition new_inline (w h : Z) : irend := IR w h [] [] 0.

(* inline.go:32-37 cursorUp *)
Definition cursor_up (n : Z) : list Z := if n <=? 0 then [] else 27 :: 91 :: dec n ++ [65].

Definition erase_right : list Z := [27; 91; 75].
Definition erase_below : list Z := [27; 91; 74].
Definition crlf : list Z := [13; 10].

Definition line_at (ls : list (list Z)) (i : nat) : option (list Z) := nth_error ls i.

(* inline.go:105-130, from line index [i] on *)
Fixpoint out_lines (w : Z) (last : list (list Z)) (i : nat) (ls : list (list Z)) : list Z :=
  match ls with
  | [] => []
  | l :: rest =>
      let nl := match rest with [] => [] | _ => crlf end in
      let line := if 0 <? w then truncate_line l w else l in
      match line_at last i with
      | Some l0 => if list_eqb l0 l then nl ++ out_lines w last (S i) rest
                   else line ++ erase_right ++ nl ++ out_lines w last (S i) rest
      | None => line ++ erase_right ++ nl ++ out_lines w last (S i) rest
      end
  end.

(* inline.go:97-103: split, keep the last [h] lines *)
Definition clip (h : Z) (ls : list (list Z)) : list (list Z) :=
  if (0 <? h) && (h <? Z.of_nat (length ls)) then skipn (length ls - Z.to_nat h) ls else ls.

(* inline.go:77-151 Render *)
Definition irender (r : irend) (view : list Z) : irend * list Z :=
  if list_eqb view (last_view r) && (0 <? Z.of_nat (nrend r)) then (r, [])
  else
    let ls := clip (ih r) (split_nl view) in
    let out :=
      (if (1 <? nrend r)%nat then cursor_up (Z.of_nat (nrend r) - 1) else []) ++ [13] ++
      out_lines (iw r) (last_lines r) 0 ls ++
      (if (length ls <? nrend r)%nat then erase_below else []) ++ [13] in
    (IR (iw r) (ih r) view ls (length ls), out).

(* inline.go:160-165 Repaint *)
Definition irepaint (r : irend) : irend := IR (iw r) (ih r) [] [] (nrend r).
(* inline.go:169-176 Resize *)
Definition iresize (r : irend) (w h : Z) : irend := IR w h [] [] (nrend r).
(* inline.go:180-187 SetOutput (the new writer's screen is a different observer) *)
Definition iset_output (r : irend) : irend := IR (iw r) (ih r) [] [] 0.

Inductive icall := IRender (view : list Z) | IRepaint | IResize (w h : Z).
Definition do_icall (r : irend) (c : icall) : irend * list Z :=
  match c with
  | IRender v => irender r v
  | IRepaint => (irepaint r, [])
  | IResize w h => (iresize r w h, [])
  end.
Fixpoint do_icalls (r : irend) (cs : list icall) : irend * list Z :=
  match cs with
  | [] => (r, [])
  | c :: rest => let '(r1, o1) := do_icall r c in
                 let '(r2, o2) := do_icalls r1 rest in (r2, o1 ++ o2)
  end.
End Inline.
