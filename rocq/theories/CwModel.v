(** Model of the Windows clipboard provider:
    /repo/clipboard/internal/infrastructure/native/clipboard_windows.go.

    The Win32 clipboard is specified here, not code: the block of 16-bit units stored as
    CF_UNICODETEXT (None: no text), whether this process has it open, and how many global memory
    handles this process has allocated and neither freed nor handed over.  Each Win32 call may
    fail (the oracle says which; an exhausted oracle means success).  A read beyond the end of a
    Go slice through unsafe.Slice finds whatever lies there: adj i is the unit i places after the
    end, None if that address is not readable (the process then crashes: Fault). *)
From Verif Require Import Prelude Utf8.
From Verif Require TmModel.

Record st := St { clip : option (list Z); opened : bool; owned : Z; orc : list bool }.
Inductive res (A : Type) := Ok (x : A) | Err | Fault.
Arguments Ok {A}. Arguments Err {A}. Arguments Fault {A}.

(* clipboard_windows.go:159-179: stringToUTF16Ptr, the slice whose first element it points to *)
Definition units_of_rune (r : Z) : list Z :=
  if r <? 65536 then [r]
  else let r := r - 65536 in [55296 + Z.shiftr r 10; 56320 + Z.land r 1023].
Definition stringToUTF16 (s : list Z) : list Z := flat_map units_of_rune (runes_of s) ++ [0].

(* clipboard_windows.go:190-196: the units before the first 0 *)
Fixpoint before0 (us : list Z) : option (list Z) :=
  match us with
  | [] => None
  | u :: r => if u =? 0 then Some [] else match before0 r with Some l => Some (u :: l) | None => None end
  end.
(* clipboard_windows.go:206-224 *)
Fixpoint runes16 (fuel : nat) (us : list Z) : list Z :=
  match fuel, us with
  | O, _ | _, [] => []
  | S f, r :: rest =>
      let one := r :: runes16 f rest in
      if (55296 <=? r) && (r <? 56320) then
        match rest with
        | low :: rest' => if (56320 <=? low) && (low <? 57344) then (Z.lor (Z.shiftl (r - 55296) 10) (low - 56320) + 65536) :: runes16 f rest' else one
        | [] => one
        end
      else one
  end.
(* string(runes): a rune that is no scalar value becomes U+FFFD *)
Definition string_of_runes (rs : list Z) : list Z := flat_map (fun r => enc_rune (if scalarb r then r else rune_error)) rs.
(* clipboard_windows.go:185-227 *)
Definition utf16ToString (us : list Z) : option (list Z) :=
  match before0 us with Some l => Some (string_of_runes (runes16 (length l) l)) | None => None end.

Section Memory.
Variable adj : nat -> option Z.

(* clipboard_windows.go:234-240: unsafe.Slice(src, size/2) over a slice that may be shorter *)
Fixpoint copyMemory (src : list Z) (k n : nat) : option (list Z) :=
  match n with
  | O => Some []
  | S n' =>
      match src with
      | u :: r => match copyMemory r k n' with Some l => Some (u :: l) | None => None end
      | [] => match adj k with
              | Some u => match copyMemory [] (S k) n' with Some l => Some (u :: l) | None => None end
              | None => None
              end
      end
  end.

Definition fails (s : st) : bool * st := let (ok, o) := TmModel.ask (orc s) in (negb ok, St (clip s) (opened s) (owned s) o).
Definition own (s : st) (n : Z) : st := St (clip s) (opened s) (owned s + n) (orc s).
Definition set_open (s : st) (b : bool) : st := St (clip s) b (owned s) (orc s).
Definition set_clip (s : st) (c : option (list Z)) : st := St c (opened s) (owned s) (orc s).

(* clipboard_windows.go:91-146, content not nil, its text given *)
Definition Write (text : list Z) (s : st) : res unit * st :=
  let utf16Text := stringToUTF16 text in
  let units := (length text + 1)%nat in                               (* utf16Len / 2 *)
  let (bad, s) := fails s in if bad then (Err, s) else                 (* GlobalAlloc *)
  let s := own s 1 in
  let (bad, s) := fails s in if bad then (Err, own s (-1)) else        (* GlobalLock; GlobalFree *)
  match copyMemory utf16Text 0 units with
  | None => (Fault, s)
  | Some block =>
      let (bad, s) := fails s in if bad then (Err, own s (-1)) else    (* OpenClipboard; GlobalFree *)
      let s := set_open s true in
      let (r, s) :=
        let (bad, s) := fails s in if bad then (Err, s) else           (* EmptyClipboard *)
        let s := set_clip s None in
        let (bad, s) := fails s in if bad then (Err, s) else           (* SetClipboardData takes the handle over *)
        (Ok tt, own (set_clip s (Some block)) (-1)) in
      (r, set_open s false)                                            (* deferred CloseClipboard *)
  end.

(* clipboard_windows.go:62-87 *)
Definition Read (s : st) : res (list Z) * st :=
  let (bad, s) := fails s in if bad then (Err, s) else                 (* OpenClipboard *)
  let s := set_open s true in
  let (r, s) :=
    let (bad, s) := fails s in                                         (* GetClipboardData *)
    match clip s with
    | None => (Err, s)
    | Some block =>
        if bad then (Err, s) else
        let (bad, s) := fails s in if bad then (Err, s) else           (* GlobalLock *)
        match utf16ToString block with
        | None => (Fault, s)                                           (* a block without a 0 *)
        | Some [] => (Err, s)                                          (* NewTextContent("") *)
        | Some t => (Ok t, s)
        end
    end in
  (r, set_open s false).
End Memory.
