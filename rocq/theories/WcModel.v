(** Model of the Windows terminal: /repo/terminal/internal/infrastructure/windows/console.go, the
    implementation behind terminal.New() in a Windows console (new_windows.go:15-23), with
    syscalls_windows.go as the Win32 calls it makes.

    The console device (Win32) is specified here, not code: screen buffers by handle, the active
    one, the input mode.  Any Win32 call may fail leaving no trace (the oracle says which).
    Simplifications: the cached info is refreshed before every use in the code and therefore not
    kept; Go's int is unbounded except where the code converts to int16; how the console prints a
    string is a parameter; a screen buffer's cells are UTF-16 units. *)
From Verif Require Import Prelude.
From Verif Require TmModel.

(** A screen buffer: size, size of the visible window, text and attributes of cell (x, y) at
    index y * width + x, current attributes, cursor, its visibility and size. *)
Record buf := Buf { bw : Z; bh : Z; ww : Z; wh : Z; txt : Z -> Z; atr : Z -> Z; def : Z; cx : Z; cy : Z; vis : bool; csz : Z }.
Definition char_at (b : buf) (x y : Z) : Z := txt b (y * bw b + x).
Definition attr_at (b : buf) (x y : Z) : Z := atr b (y * bw b + x).
Definition set_cursor (b : buf) (x y : Z) : buf := Buf (bw b) (bh b) (ww b) (wh b) (txt b) (atr b) (def b) x y (vis b) (csz b).
(** FillConsoleOutputCharacter and FillConsoleOutputAttribute: n cells from (x, y) on, line after
    line, up to the end of the buffer. *)
Definition fill (b : buf) (f : Z -> Z) (v n x y : Z) : Z -> Z :=
  fun i => let s := y * bw b + x in if (s <=? i) && (i <? s + n) && (i <? bw b * bh b) then v else f i.
Definition fill_txt (b : buf) (v n x y : Z) : buf := Buf (bw b) (bh b) (ww b) (wh b) (fill b (txt b) v n x y) (atr b) (def b) (cx b) (cy b) (vis b) (csz b).
Definition fill_atr (b : buf) (v n x y : Z) : buf := Buf (bw b) (bh b) (ww b) (wh b) (txt b) (fill b (atr b) v n x y) (def b) (cx b) (cy b) (vis b) (csz b).
(** CreateConsoleScreenBuffer: as large as the window of the active buffer, blank, with its attributes. *)
Definition fresh (b : buf) : buf := Buf (ww b) (wh b) (ww b) (wh b) (fun _ => 32) (fun _ => def b) (def b) 0 0 true 25.

(** Handles are numbers, 0 the process's standard output; a closed handle has no buffer. *)
Record dev := Dev { bufs : list (option buf); active : nat; imode : Z }.
Definition buf_of (d : dev) (h : nat) : option buf := match nth_error (bufs d) h with Some (Some b) => Some b | _ => None end.
Definition set_buf (d : dev) (h : nat) (b : option buf) : dev := Dev (set_nth (bufs d) h b) (active d) (imode d).

(** The Go struct (console.go:65-80) without the cache; stdin is the console's input. *)
Record con := Con { out : nat; orig : nat; alt : option nat; inAlt : bool; inRaw : bool; omode : Z }.
(* console.go:90-107 *)
Definition new_con : con := Con 0 0 None false false 0.

(** Everything: the object, the package variables savedCursorX and savedCursorY (console.go:221-224),
    the device and the oracle. *)
Record st := St { obj : con; saved : Z * Z; device : dev; orc : list bool }.

(** A Go function returning (A, error): None is an error. *)
Definition M (A : Type) := st -> option A * st.
Definition ret {A} (x : A) : M A := fun s => (Some x, s).
Definition fail {A} : M A := fun s => (None, s).
Definition bind {A B} (m : M A) (k : A -> M B) : M B := fun s => match m s with (Some x, s) => k x s | (None, s) => (None, s) end.
Notation "'let!' x ':=' m 'in' k" := (bind m (fun x => k)) (at level 200, x name, m at level 100, k at level 200).
Definition get : M con := fun s => (Some (obj s), s).
Definition put_obj (c : con) : M unit := fun s => (Some tt, St c (saved s) (device s) (orc s)).

(** A Win32 call: the oracle, then the device's own reasons to refuse (None). *)
Definition sys {A} (f : dev -> option (A * dev)) : M A := fun s =>
  let (ok, o) := TmModel.ask (orc s) in
  if ok then match f (device s) with
             | Some (x, d) => (Some x, St (obj s) (saved s) d o)
             | None => (None, St (obj s) (saved s) (device s) o)
             end
  else (None, St (obj s) (saved s) (device s) o).
Definition on_buf {A} (h : nat) (f : buf -> option (A * buf)) : M A :=
  sys (fun d => match buf_of d h with
                | None => None
                | Some b => match f b with Some (x, b') => Some (x, set_buf d h (Some b')) | None => None end
                end).

Definition int16 (z : Z) : Z := (z + 32768) mod 65536 - 32768.

(** The Win32 calls of the code. *)
Definition GetInfo (h : nat) : M buf := on_buf h (fun b => Some (b, b)).
Definition SetConsoleCursorPosition (h : nat) (x y : Z) : M unit :=
  on_buf h (fun b => if (0 <=? x) && (x <? bw b) && (0 <=? y) && (y <? bh b) then Some (tt, set_cursor b x y) else None).
Definition FillChar (h : nat) (v n x y : Z) : M unit := on_buf h (fun b => Some (tt, fill_txt b v n x y)).
Definition FillAttr (h : nat) (v n x y : Z) : M unit := on_buf h (fun b => Some (tt, fill_atr b v n x y)).
Definition GetCursorInfo (h : nat) : M (bool * Z) := on_buf h (fun b => Some ((vis b, csz b), b)).
Definition SetCursorInfo (h : nat) (v : bool) (z : Z) : M unit :=
  on_buf h (fun b => Some (tt, Buf (bw b) (bh b) (ww b) (wh b) (txt b) (atr b) (def b) (cx b) (cy b) v z)).
Definition ReadOutput (h : nat) : M (list Z) := on_buf h (fun b => Some (map (fun i => txt b (Z.of_nat i)) (seq 0 (Z.to_nat (bw b * bh b))), b)).
Definition CreateBuffer : M nat :=
  sys (fun d => match buf_of d (active d) with
                | None => None
                | Some b => Some (length (bufs d), Dev (bufs d ++ [Some (fresh b)]) (active d) (imode d))
                end).
Definition SetActive (h : nat) : M unit :=
  sys (fun d => match buf_of d h with None => None | Some _ => Some (tt, Dev (bufs d) h (imode d)) end).
Definition GetMode : M Z := sys (fun d => Some (imode d, d)).
Definition SetMode (m : Z) : M unit := sys (fun d => Some (tt, Dev (bufs d) (active d) m)).

Section Console.
Variable put : list Z -> buf -> buf.      (* how the console prints a string *)
Variable close_ok : nat -> bool.          (* whether closing a handle succeeds *)

(** CloseHandle; its error is ignored by the code. *)
Definition CloseHandle (h : nat) : M unit := fun s =>
  (Some tt, if close_ok h then St (obj s) (saved s) (set_buf (device s) h None) (orc s) else s).

(* console.go:121-127 *)
Definition SetCursorPosition (x y : Z) : M unit := let! c := get in SetConsoleCursorPosition (out c) (int16 x) (int16 y).
(* console.go:109-113, 132-138 *)
Definition refreshInfo : M buf := let! c := get in GetInfo (out c).
Definition GetCursorPosition : M (Z * Z) := let! i := refreshInfo in ret (cx i, cy i).
(* console.go:141-218 *)
Definition MoveCursorUp (n : Z) : M unit :=
  if n <=? 0 then ret tt else
  let! p := GetCursorPosition in
  let y := snd p - n in let y := if y <? 0 then 0 else y in SetCursorPosition (fst p) y.
Definition MoveCursorDown (n : Z) : M unit :=
  if n <=? 0 then ret tt else
  let! p := GetCursorPosition in
  let! i := refreshInfo in
  let maxY := bh i - 1 in let y := snd p + n in let y := if maxY <? y then maxY else y in SetCursorPosition (fst p) y.
Definition MoveCursorLeft (n : Z) : M unit :=
  if n <=? 0 then ret tt else
  let! p := GetCursorPosition in
  let x := fst p - n in let x := if x <? 0 then 0 else x in SetCursorPosition x (snd p).
Definition MoveCursorRight (n : Z) : M unit :=
  if n <=? 0 then ret tt else
  let! p := GetCursorPosition in
  let! i := refreshInfo in
  let maxX := bw i - 1 in let x := fst p + n in let x := if maxX <? x then maxX else x in SetCursorPosition x (snd p).
(* console.go:228-244 *)
Definition SaveCursorPosition : M unit :=
  let! p := GetCursorPosition in fun s => (Some tt, St (obj s) p (device s) (orc s)).
Definition RestoreCursorPosition : M unit := fun s => SetCursorPosition (fst (saved s)) (snd (saved s)) s.
(* console.go:252-306 *)
Definition HideCursor : M unit := let! c := get in let! i := GetCursorInfo (out c) in SetCursorInfo (out c) false (snd i).
Definition ShowCursor : M unit := let! c := get in let! i := GetCursorInfo (out c) in SetCursorInfo (out c) true (snd i).
Definition SetCursorStyle (s : Z) : M unit :=
  let! c := get in let! i := GetCursorInfo (out c) in
  if s =? 0 then SetCursorInfo (out c) (fst i) 100
  else if s =? 1 then SetCursorInfo (out c) (fst i) 25
  else if s =? 2 then SetCursorInfo (out c) (fst i) 10
  else fail.
(* console.go:314-353 *)
Definition Clear : M unit :=
  let! i := refreshInfo in
  let! c := get in
  let! _ := FillChar (out c) 32 (bw i * bh i) 0 0 in
  let! _ := FillAttr (out c) (def i) (bw i * bh i) 0 0 in
  SetCursorPosition 0 0.
(* console.go:357-387 *)
Definition ClearLine : M unit :=
  let! p := GetCursorPosition in
  let! i := refreshInfo in
  let! c := get in
  let! _ := FillChar (out c) 32 (bw i) 0 (int16 (snd p)) in
  SetCursorPosition 0 (snd p).
(* console.go:391-427 *)
Definition ClearFromCursor : M unit :=
  let! p := GetCursorPosition in
  let! i := refreshInfo in
  let! c := get in
  let onLine := bw i - fst p in
  let below := (bh i - snd p - 1) * bw i in
  FillChar (out c) 32 (onLine + below) (int16 (fst p)) (int16 (snd p)).
(* console.go:438-478 *)
Definition ClearLines (count : Z) : M unit :=
  if count <=? 0 then ret tt else
  let! p := GetCursorPosition in
  let! i := refreshInfo in
  let! c := get in
  let startY := snd p - count + 1 in
  let '(startY, count) := if startY <? 0 then (0, snd p + 1) else (startY, count) in
  let! _ := FillChar (out c) 32 (bw i * count) 0 (int16 startY) in
  SetCursorPosition 0 startY.
(* console.go:486-489: fmt.Fprint(os.Stdout, s): os.Stdout is handle 0 *)
Definition Write (s : list Z) : M unit := on_buf 0 (fun b => Some (tt, put s b)).
(* console.go:499-504 *)
Definition WriteAt (x y : Z) (s : list Z) : M unit := let! _ := SetCursorPosition x y in Write s.
(* console.go:522-565: result[y][x] = buffer[y*width + x] *)
Definition ReadScreenBuffer : M (list (list Z)) :=
  let! i := refreshInfo in
  let! c := get in
  let! cells := ReadOutput (out c) in
  ret (map (fun y => map (fun x => nth (y * Z.to_nat (bw i) + x) cells 0) (seq 0 (Z.to_nat (bw i)))) (seq 0 (Z.to_nat (bh i)))).
(* console.go:573-580; the second component of the fallback is the error *)
Definition Size : M (Z * Z) := let! i := refreshInfo in ret (bw i, bh i).

(* console.go:640-683 *)
Definition EnterAltScreen : M unit :=
  let! c := get in
  if inAlt c then fail else
  let! _ := put_obj (Con (out c) (out c) (alt c) (inAlt c) (inRaw c) (omode c)) in
  let! h := CreateBuffer in
  let! c := get in
  let! _ := put_obj (Con (out c) (orig c) (Some h) (inAlt c) (inRaw c) (omode c)) in
  fun s => match SetActive h s with
  | (None, s) => (let! _ := CloseHandle h in let! c := get in let! _ := put_obj (Con (out c) (orig c) None (inAlt c) (inRaw c) (omode c)) in fail) s
  | (Some _, s) => (let! c := get in put_obj (Con h (orig c) (alt c) true (inRaw c) (omode c))) s
  end.
(* console.go:698-724 *)
Definition ExitAltScreen : M unit :=
  let! c := get in
  if negb (inAlt c) then fail else
  let! _ := SetActive (orig c) in
  let! _ := match alt c with Some h => CloseHandle h | None => ret tt end in
  let! c := get in
  put_obj (Con (orig c) (orig c) None false (inRaw c) (omode c)).
(* console.go:727-737, 747-753 *)
Definition IsInAltScreen (s : st) : bool := inAlt (obj s).
Definition IsInRawMode (s : st) : bool := inRaw (obj s).
(* console.go:788-790: mode &^ (LINE|ECHO|PROCESSED) | VIRTUAL_TERMINAL_INPUT *)
Definition raw_mode (m : Z) : Z := Z.lor (Z.ldiff m (Z.lor (Z.lor 2 4) 1)) 512.
(* console.go:767-803 *)
Definition EnterRawMode : M unit :=
  let! c := get in
  if inRaw c then fail else
  let! m := GetMode in
  let! _ := put_obj (Con (out c) (orig c) (alt c) (inAlt c) (inRaw c) m) in
  let! _ := SetMode (raw_mode m) in
  put_obj (Con (out c) (orig c) (alt c) (inAlt c) true m).
(* console.go:816-833 *)
Definition ExitRawMode : M unit :=
  let! c := get in
  if negb (inRaw c) then fail else
  let! _ := SetMode (omode c) in
  put_obj (Con (out c) (orig c) (alt c) (inAlt c) false 0).

Definition do_call (c : TmModel.call) : M unit :=
  match c with
  | TmModel.SetCursorPosition x y => SetCursorPosition x y
  | TmModel.MoveCursorUp n => MoveCursorUp n
  | TmModel.MoveCursorDown n => MoveCursorDown n
  | TmModel.MoveCursorLeft n => MoveCursorLeft n
  | TmModel.MoveCursorRight n => MoveCursorRight n
  | TmModel.SaveCursorPosition => SaveCursorPosition
  | TmModel.RestoreCursorPosition => RestoreCursorPosition
  | TmModel.HideCursor => HideCursor
  | TmModel.ShowCursor => ShowCursor
  | TmModel.SetCursorStyle s => SetCursorStyle s
  | TmModel.Clear => Clear
  | TmModel.ClearLine => ClearLine
  | TmModel.ClearFromCursor => ClearFromCursor
  | TmModel.ClearLines n => ClearLines n
  | TmModel.Write s => Write s
  | TmModel.WriteAt x y s => WriteAt x y s
  | TmModel.EnterAltScreen => EnterAltScreen
  | TmModel.ExitAltScreen => ExitAltScreen
  | TmModel.EnterRawMode => EnterRawMode
  | TmModel.ExitRawMode => ExitRawMode
  end.
(** A sequence of calls; the caller goes on after errors. *)
Definition do_calls (cs : list TmModel.call) (s : st) : st := fold_left (fun s c => snd (do_call c s)) cs s.

(** A program starts with one open buffer, which is active; the oracle is arbitrary. *)
Definition start (b : buf) (mode : Z) (o : list bool) : st := St new_con (0, 0) (Dev [Some b] 0 mode) o.
End Console.
