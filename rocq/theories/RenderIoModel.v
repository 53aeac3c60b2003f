(** Model of the renderer over an output that can fail: render/internal/infrastructure/ansi/writer.go (over bufio.Writer) and
    render/internal/application/renderer.go, every call with the error it returns. Code points stand for their bytes, as in
    RenderModel. [faults] says after how many more code points the output's next failures come: a failing Write takes the code points
    left until then and returns an error. bufio's behaviour: it may hand over what it holds before any code point ([plan] says when;
    the real points depend on its buffer size and on WriteRune's reserve), a failed Write leaves it with an error for good, and then
    every write and Flush returns that error and does nothing. *)
From Verif Require Import Prelude RenderModel.

Record bufio := Bw { pend : list Z; bad : bool; sent : list Z; faults : list nat; plan : list bool }.
Definition new_bufio (fs : list nat) (ps : list bool) : bufio := Bw [] false [] fs ps.
(** One Write to the output. *)
Definition b_flush (b : bufio) : bool * bufio :=
  if bad b then (false, b)
  else match pend b, faults b with
       | [], _ => (true, b)
       | p, [] => (true, Bw [] false (sent b ++ p) [] (plan b))
       | p, n :: fs => if (length p <=? n)%nat then (true, Bw [] false (sent b ++ p) ((n - length p)%nat :: fs) (plan b))
                       else (false, Bw (skipn n p) true (sent b ++ firstn n p) fs (plan b))
       end.
Definition b_put (c : Z) (b : bufio) : bool * bufio :=
  if bad b then (false, b)
  else let early := hd false (plan b) in
       let b := Bw (pend b) false (sent b) (faults b) (tl (plan b)) in
       let (ok, b) := if early then b_flush b else (true, b) in
       if ok then (true, Bw (pend b ++ [c]) (bad b) (sent b) (faults b) (plan b)) else (false, b).
Fixpoint b_puts (s : list Z) (b : bufio) : bool * bufio :=
  match s with [] => (true, b) | c :: r => let (ok, b) := b_put c b in if ok then b_puts r b else (false, b) end.

(* writer.go:47-63 MoveCursor *)
Definition x_move (w : writer) (b : bufio) (x y : Z) : bool * (writer * bufio) :=
  if (x =? wx w) && (y =? wy w) then (true, (w, b))
  else let (ok, b) := b_puts (move_cursor_code x y) b in if ok then (true, (Writer x y (wstyle w), b)) else (false, (w, b)).
(* writer.go:93-116 WriteCell *)
Definition x_cell (w : writer) (b : bufio) (c : cell) : bool * (writer * bufio) :=
  let '(ok, w, b) :=
    if style_eqb (cstyle c) (wstyle w) then (true, w, b)
    else let (ok, b) := b_puts (to_ansi (cstyle c)) b in (ok, if ok then Writer (wx w) (wy w) (cstyle c) else w, b) in
  if negb ok then (false, (w, b))
  else let (ok, b) := b_puts [char c] b in if ok then (true, (Writer (wx w + cwidth c) (wy w) (wstyle w), b)) else (false, (w, b)).
(* renderer.go:140-145, 170-175 *)
Definition x_cell_at (w : writer) (b : bufio) (o : op) : bool * (writer * bufio) :=
  let '(ok, (w, b)) := x_move w b (ox o) (oy o) in if ok then x_cell w b (ocell o) else (false, (w, b)).
(* renderer.go:166-193 applyOperations; 135-148 *)
Fixpoint x_ops (w : writer) (b : bufio) (ops : list op) : bool * (writer * bufio) :=
  match ops with [] => (true, (w, b)) | o :: rest => let '(ok, (w, b)) := x_cell_at w b o in if ok then x_ops w b rest else (false, (w, b)) end.
(* renderer.go:126-133, 205-211: Clear and MoveCursor(0, 0) *)
Definition x_home (w : writer) (b : bufio) : bool * (writer * bufio) :=
  let (ok, b) := b_puts clear_screen_code b in if ok then x_move w b 0 0 else (false, (w, b)).

(** The renderer keeps its writer's state also when the call fails; previousBuffer and the size are set after the last write. *)
Definition with_writer (r : renderer) (w : writer) : renderer := Renderer w (prev r) (rwidth r) (rheight r).
Definition finish (r : renderer) (good : renderer -> renderer) (q : bool * (writer * bufio)) : bool * (renderer * bufio) :=
  let '(ok, (w, b)) := q in
  if ok then let (ok, b) := b_flush b in if ok then (true, (good (with_writer r w), b)) else (false, (with_writer r w, b))
  else (false, (with_writer r w, b)).
(* renderer.go:124-161 *)
Definition x_full (r : renderer) (b : bufio) (f : buffer) : bool * (renderer * bufio) :=
  finish r (fun r => Renderer (rw r) f (Z.of_nat (bw f)) (Z.of_nat (bh f))) (let '(ok, (w, b)) := x_home (rw r) b in if ok then x_ops w b (diff_full f) else (false, (w, b))).
(* renderer.go:75-119 *)
Definition x_render (r : renderer) (b : bufio) (f : buffer) : bool * (renderer * bufio) :=
  if negb ((Z.of_nat (bw f) =? rwidth r) && (Z.of_nat (bh f) =? rheight r)) then x_full r b f
  else match diff (prev r) f with
       | [] => (true, (r, b))
       | ops => let ops := remove_redundant ops (wstyle (rw r)) in
                if should_full_redraw (Z.of_nat (length ops)) (rwidth r * rheight r) then x_full r b f
                else finish r (fun r => Renderer (rw r) f (rwidth r) (rheight r)) (x_ops (rw r) b ops)
       end.
(* renderer.go:204-222 *)
Definition x_clear (r : renderer) (b : bufio) : bool * (renderer * bufio) :=
  finish r (fun r => Renderer (rw r) (clear_buf (prev r)) (rwidth r) (rheight r)) (x_home (rw r) b).
(* renderer.go:75-82, 196-266 *)
Definition x_call (r : renderer) (b : bufio) (c : call) : bool * (renderer * bufio) :=
  match c with
  | Render f => x_render r b f
  | RenderNil => (true, (r, b))
  | Clear => x_clear r b
  | Resize w h => x_clear (Renderer (rw r) (new_buffer w h) w h) b
  | HideCursor => finish r (fun r => r) (let (ok, b) := b_puts cursor_hide_code b in (ok, (rw r, b)))
  | ShowCursor => finish r (fun r => r) (let (ok, b) := b_puts cursor_show_code b in (ok, (rw r, b)))
  end.
(** The calls with their results (true: nil was returned). *)
Fixpoint x_calls (r : renderer) (b : bufio) (cs : list call) : list bool * (renderer * bufio) :=
  match cs with [] => ([], (r, b)) | c :: rest => let '(ok, (r, b)) := x_call r b c in let (oks, q) := x_calls r b rest in (ok :: oks, q) end.
Definition run_io (w h : Z) (fs : list nat) (ps : list bool) (cs : list call) : list bool * bufio :=
  let '(oks, (_, b)) := x_calls (new_renderer w h) (new_bufio fs ps) cs in (oks, b).
