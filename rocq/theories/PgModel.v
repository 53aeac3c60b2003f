(** Model of components/progress: bar.go, spinner.go, internal/domain/model/{bar,spinner}.go,
    internal/domain/value/{percentage,spinner_style}.go, internal/domain/service/render.go,
    internal/infrastructure/spinners.go. Go's int is 64 bits and wraps. Strings are lists of code points. *)
From Verif Require Import Prelude Utf8.

(** int64 arithmetic wraps *)
Definition wrap64 (z : Z) : Z := (z + 9223372036854775808) mod 18446744073709551616 - 9223372036854775808.
Definition int64 (z : Z) : Prop := -9223372036854775808 <= z <= 9223372036854775807.
(* percentage.go:41-49, 12-16 *)
Definition clamp_pct (v : Z) : Z := if v <? 0 then 0 else if 100 <? v then 100 else v.
(* model/bar.go:8-15 *)
Record bar := Bar { pct : Z; width : Z; fillc : Z; emptyc : Z; show : bool; blabel : list Z }.
(* 19-39 *)
Definition new_bar (w : Z) : bar := Bar (clamp_pct 0) (if w <? 1 then 1 else w) 9608 9617 false [].
Definition set_pct (b : bar) (p : Z) : bar := Bar (clamp_pct p) (width b) (fillc b) (emptyc b) (show b) (blabel b).
Definition new_bar_pct (w p : Z) : bar := set_pct (new_bar w) p.
(* 42-83; percentage.go:25-33 *)
Inductive bop := BSet (p : Z) | BInc (d : Z) | BDec (d : Z) | BFill (c : Z) | BEmpty (c : Z) | BShow (b : bool) | BLabel (l : list Z).
Definition bstep (b : bar) (o : bop) : bar :=
  match o with
  | BSet p => set_pct b p
  | BInc d => set_pct b (wrap64 (pct b + d))
  | BDec d => set_pct b (wrap64 (pct b - d))
  | BFill c => Bar (pct b) (width b) c (emptyc b) (show b) (blabel b)
  | BEmpty c => Bar (pct b) (width b) (fillc b) c (show b) (blabel b)
  | BShow s => Bar (pct b) (width b) (fillc b) (emptyc b) s (blabel b)
  | BLabel l => Bar (pct b) (width b) (fillc b) (emptyc b) (show b) l
  end.
Definition bsteps (os : list bop) (b : bar) : bar := fold_left bstep os b.
Definition complete (b : bar) : bool := pct b =? 100.
(* render.go:53-68 *)
Definition filled_width (w p : Z) : Z := if w <=? 0 then 0 else if p <=? 0 then 0 else if 100 <=? p then w else Z.quot (wrap64 (p * w)) 100.
(* render.go:71-76 *)
Definition format_pct (p : Z) : list Z := [48 + Z.rem (Z.quot p 100) 10; 48 + Z.rem (Z.quot p 10) 10; 48 + Z.rem p 10; 37].
(** strings.Join(parts, " ") *)
Fixpoint join_sp (l : list (list Z)) : list Z := match l with [] => [] | [a] => a | a :: r => a ++ 32 :: join_sp r end.
(** string(rune): what is not a code point becomes U+FFFD *)
Definition rune_str (c : Z) : Z := if scalarb c then c else 65533.
(* render.go:22-49; None: strings.Repeat panics on a negative count *)
Definition render_bar (b : bar) : option (list Z) :=
  let f := filled_width (width b) (pct b) in let e := width b - f in
  if (f <? 0) || (e <? 0) then None
  else Some (join_sp ((match blabel b with [] => [] | l => [l] end) ++ [repeat (rune_str (fillc b)) (Z.to_nat f) ++ repeat (rune_str (emptyc b)) (Z.to_nat e)] ++ (if show b then [format_pct (pct b)] else []))).

(* spinner_style.go:5-29 *)
Record style := Style { frames : list (list Z); fps : Z }.
Definition new_style (fr : list (list Z)) (f : Z) : style := Style (match fr with [] => [[8226]] | _ => fr end) (if f <=? 0 then 10 else f).
(* 50-63 *)
Definition get_frame (s : style) (i : Z) : list Z :=
  let n := Z.of_nat (length (frames s)) in
  if n =? 0 then [] else let i := if i <? 0 then n + Z.rem i n else i in nth (Z.to_nat (Z.rem i n)) (frames s) [].
(* model/spinner.go:7-11 *)
Record spinner := Spin { sstyle : style; frame : Z; slabel : list Z }.
Definition new_spinner (s : style) : spinner := Spin s 0 [].
(* 35-38 *)
Definition next_frame (s : spinner) : spinner := Spin (sstyle s) (Z.rem (frame s + 1) (Z.of_nat (length (frames (sstyle s))))) (slabel s).
(* spinner.go:74-83: the state and the number of tick commands returned *)
Inductive smsg := STick | SOther.
Definition supdate (s : spinner) (m : smsg) : spinner * nat := match m with STick => (next_frame s, 1%nat) | SOther => (s, 0%nat) end.
(* spinner.go:88-96 *)
Definition sview (s : spinner) : list Z := match slabel s with [] => get_frame (sstyle s) (frame s) | l => get_frame (sstyle s) (frame s) ++ 32 :: l end.
(* spinners.go:8-105, 107-126 *)
Definition registry : list (list Z * style) := [
  ([100; 111; 116; 115], new_style [[10251]; [10265]; [10297]; [10296]; [10300]; [10292]; [10278]; [10279]; [10247]; [10255]] 10) (* dots *);
  ([108; 105; 110; 101], new_style [[124]; [47]; [45]; [92]] 10) (* line *);
  ([97; 114; 114; 111; 119], new_style [[8592]; [8598]; [8593]; [8599]; [8594]; [8600]; [8595]; [8601]] 8) (* arrow *);
  ([99; 105; 114; 99; 108; 101], new_style [[9680]; [9683]; [9681]; [9682]] 8) (* circle *);
  ([98; 111; 117; 110; 99; 101], new_style [[10241]; [10242]; [10244]; [10304]; [10368]; [10272]; [10256]; [10248]] 10) (* bounce *);
  ([100; 111; 116; 45; 112; 117; 108; 115; 101], new_style [[10494]; [10493]; [10491]; [10431]; [10367]; [10463]; [10479]; [10487]] 12) (* dot-pulse *);
  ([103; 114; 111; 119; 45; 118; 101; 114; 116; 105; 99; 97; 108], new_style [[9601]; [9603]; [9604]; [9605]; [9606]; [9607]; [9608]; [9607]; [9606]; [9605]; [9604]; [9603]] 8) (* grow-vertical *);
  ([103; 114; 111; 119; 45; 104; 111; 114; 105; 122; 111; 110; 116; 97; 108], new_style [[9615]; [9614]; [9613]; [9612]; [9611]; [9610]; [9609]; [9608]; [9609]; [9610]; [9611]; [9612]; [9613]; [9614]] 8) (* grow-horizontal *);
  ([98; 111; 120; 45; 98; 111; 117; 110; 99; 101], new_style [[9622]; [9624]; [9629]; [9623]] 10) (* box-bounce *);
  ([115; 105; 109; 112; 108; 101; 45; 100; 111; 116; 115], new_style [[46; 32; 32]; [46; 46; 32]; [46; 46; 46]] 6) (* simple-dots *);
  ([99; 108; 111; 99; 107], new_style [[128336]; [128337]; [128338]; [128339]; [128340]; [128341]; [128342]; [128343]; [128344]; [128345]; [128346]; [128347]] 4) (* clock *);
  ([101; 97; 114; 116; 104], new_style [[127757]; [127758]; [127759]] 6) (* earth *);
  ([109; 111; 111; 110], new_style [[127761]; [127762]; [127763]; [127764]; [127765]; [127766]; [127767]; [127768]] 5) (* moon *);
  ([116; 111; 103; 103; 108; 101], new_style [[8886]; [8887]] 8) (* toggle *);
  ([104; 97; 109; 98; 117; 114; 103; 101; 114], new_style [[9777]; [9778]; [9780]] 8) (* hamburger *)].
Definition s_dots : list Z := [100; 111; 116; 115].
Definition dots : style := new_style [[10251]; [10265]; [10297]; [10296]; [10300]; [10292]; [10278]; [10279]; [10247]; [10255]] 10.
(* 130-137: an unknown name gives dots *)
Definition get_style (n : list Z) : style := match find (fun p => list_eqb (fst p) n) registry with Some p => snd p | None => dots end.
(* spinner.go:30-35 *)
Definition spinner_named (n : list Z) : spinner := new_spinner (get_style n).
(* spinner.go:53-56; model/spinner.go:29-32 *)
Definition with_slabel (s : spinner) (l : list Z) : spinner := Spin (sstyle s) (frame s) l.
(* spinner.go:98-103: nanoseconds *)
Definition tick_ns (s : spinner) : Z := Z.quot 1000000000 (fps (sstyle s)).
(* spinner.go:42-46: both arguments are ignored *)
Definition new_spinner_custom (fr : list (list Z)) (f : Z) : spinner := spinner_named s_dots.
(** A parent with several spinners forwards every message to each of them and batches their commands; TickMsg carries no
    identity (tea/internal/domain/model/msg.go, tea.Tick), so each pending tick, when it fires, reaches all of them. *)
Record multi := Multi { spins : list spinner; pending : nat }.
Definition mstart (ss : list spinner) : multi := Multi ss (length ss).
Definition mtick (m : multi) : multi :=
  Multi (map (fun s => fst (supdate s STick)) (spins m)) (pending m - 1 + fold_right (fun s a => (snd (supdate s STick) + a)%nat) 0%nat (spins m)).
