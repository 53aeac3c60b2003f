(** Model of the renderer's buffer pool and of frame buffers as shared memory: render/renderer.go 216-320 (Buffer, NewBuffer,
    the drawing calls, Release), render/internal/application/renderer.go 20-70, 75-242, 290-308 (the pool, Render, Clear,
    Resize, GetBuffer, PutBuffer) and render/internal/domain/model/buffer.go 13-165, here on rows that live in a memory
    and are written in place, so that buffers may share them. What Render writes for the cells it reads is RenderModel's.
    sync.Pool: Get takes any buffer put back before, or calls New; a buffer in the pool may be lost at any time.
    Simplifications: as in RenderModel; currentBuffer, which is never read, is left out. *)
From Verif Require Import Prelude RenderModel.

(** The rows allocated so far; an address is a position. *)
Definition mem := list (list cell).
(* buffer.go:13-17: the fields are never written after NewBuffer; [rows] are the addresses of the slices in cells *)
Record hbuf := HBuf { hw : nat; hh : nat; rows : list nat }.
(* buffer.go:21-43 NewBuffer *)
Definition alloc (m : mem) (w h : Z) : mem * hbuf :=
  let w := if w <? 0 then 0 else w in
  let h := if h <? 0 then 0 else h in
  (m ++ repeat (repeat empty_cell (Z.to_nat w)) (Z.to_nat h), HBuf (Z.to_nat w) (Z.to_nat h) (seq (length m) (Z.to_nat h))).
(** What a buffer holds. *)
Definition deref (m : mem) (b : hbuf) : buffer := Buffer (hw b) (hh b) (map (fun a => nth a m []) (rows b)).
(** b.cells[y][x] = c *)
Definition poke (m : mem) (b : hbuf) (x y : nat) (c : cell) : mem :=
  let a := nth y (rows b) O in set_nth m a (set_nth (nth a m []) x c).
(** b.cells[y][x] *)
Definition peek (m : mem) (b : hbuf) (x y : nat) : cell := nth x (nth (nth y (rows b) O) m []) empty_cell.
(* buffer.go:69-75 Set *)
Definition h_set (m : mem) (b : hbuf) (x y : Z) (c : cell) : mem :=
  if (x <? 0) || (Z.of_nat (hw b) <=? x) || (y <? 0) || (Z.of_nat (hh b) <=? y) then m else poke m b (Z.to_nat x) (Z.to_nat y) c.
(* buffer.go:78-84 Clear *)
Definition h_clear (m : mem) (b : hbuf) : mem := fold_left (fun m p => poke m b (fst p) (snd p) empty_cell) (coords (hw b) (hh b)) m.
(* buffer.go:87-94 Fill *)
Definition h_fill (m : mem) (b : hbuf) (c : cell) : mem := fold_left (fun m p => poke m b (fst p) (snd p) c) (coords (hw b) (hh b)) m.
(* buffer.go:99-135 SetString, the text given by the first rune and the width of each cluster *)
Fixpoint h_clusters (m : mem) (b : hbuf) (x y : Z) (cl : list (Z * Z)) (st : style) (written : Z) : mem * Z :=
  match cl with
  | [] => (m, written)
  | (ch, w) :: rest => if Z.of_nat (hw b) <=? x then (m, written) else h_clusters (h_set m b x y (Cell ch st w)) b (x + w) y rest st (written + w)
  end.
Definition h_string (m : mem) (b : hbuf) (x y : Z) (cl : list (Z * Z)) (st : style) : mem * Z :=
  if (y <? 0) || (Z.of_nat (hh b) <=? y) || (x <? 0) then (m, 0) else h_clusters m b x y cl st 0.
(* buffer.go:139-152 SetLine *)
Fixpoint h_blank (m : mem) (b : hbuf) (x y : Z) (n : nat) : mem :=
  match n with O => m | S n' => h_blank (h_set m b x y empty_cell) b (x + 1) y n' end.
Definition h_line (m : mem) (b : hbuf) (y : Z) (cl : list (Z * Z)) (st : style) : mem :=
  if (y <? 0) || (Z.of_nat (hh b) <=? y) then m
  else let '(m', written) := h_string m b 0 y cl st in h_blank m' b written y (Z.to_nat (Z.of_nat (hw b) - written)).
(* buffer.go:155-163 Clone *)
Definition h_clone (m : mem) (b : hbuf) : mem * hbuf :=
  let '(m1, k) := alloc m (Z.of_nat (hw b)) (Z.of_nat (hh b)) in
  (fold_left (fun m p => poke m k (fst p) (snd p) (peek m b (fst p) (snd p))) (coords (hw b) (hh b)) m1, k).

(* ---------- the renderer: internal/application/renderer.go ---------- *)
Record prend := PR { pw : writer; hprev : hbuf; pwid : Z; phei : Z }.
(* 124-161 renderFullScreen *)
Definition p_full (m : mem) (r : prend) (b : hbuf) : mem * prend * list Z :=
  let '(w1, o1) := w_clear (pw r) in
  let '(w2, o2) := w_move w1 0 0 in
  let '(w3, o3) := apply_ops w2 (diff_full (deref m b)) in
  let '(m', k) := h_clone m b in
  (m', PR w3 k (Z.of_nat (hw b)) (Z.of_nat (hh b)), o1 ++ o2 ++ o3).
(* 75-119 Render *)
Definition p_render (m : mem) (r : prend) (b : hbuf) : mem * prend * list Z :=
  if negb ((Z.of_nat (hw b) =? pwid r) && (Z.of_nat (hh b) =? phei r)) then p_full m r b
  else match diff (deref m (hprev r)) (deref m b) with
       | [] => (m, r, [])
       | ops =>
           let ops := remove_redundant ops (wstyle (pw r)) in
           if should_full_redraw (Z.of_nat (length ops)) (pwid r * phei r) then p_full m r b
           else let '(w1, o1) := apply_ops (pw r) ops in
                let '(m', k) := h_clone m b in (m', PR w1 k (pwid r) (phei r), o1)
       end.
(* 204-222 clearUnlocked *)
Definition p_clear (m : mem) (r : prend) : mem * prend * list Z :=
  let '(w1, o1) := w_clear (pw r) in
  let '(w2, o2) := w_move w1 0 0 in
  (h_clear m (hprev r), PR w2 (hprev r) (pwid r) (phei r), o1 ++ o2).

(** [bufs]: the buffers the program got, in order, with whether they know their renderer (renderer.go 224-229, 259-263);
    [pool_new]: the size bufferPool.New gives. *)
Record st := St { memory : mem; rend : prend; pool : list hbuf; pool_new : Z * Z; bufs : list (hbuf * bool) }.
(* 35-52 NewRenderer *)
Definition start (w h : Z) : st := let '(m, k) := alloc [] w h in St m (PR new_writer k w h) [] (w, h) [].

Inductive draw := DSet (x y : Z) (c : cell) | DString (x y : Z) (cl : list (Z * Z)) (s : style) | DLine (y : Z) (cl : list (Z * Z)) (s : style) | DClear | DFill (c : cell).
(* renderer.go:275-308 *)
Definition h_draw (m : mem) (b : hbuf) (d : draw) : mem :=
  match d with
  | DSet x y c => h_set m b x y c
  | DString x y cl s => fst (h_string m b x y cl s)
  | DLine y cl s => h_line m b y cl s
  | DClear => h_clear m b
  | DFill c => h_fill m b c
  end.

Fixpoint drop_nth {A} (l : list A) (i : nat) : list A := match l, i with [], _ => [] | _ :: t, O => t | h :: t, S j => h :: drop_nth t j end.

(** A step of the program: Renderer.Buffer (with what the pool does: which buffer it hands out, if any), NewBuffer, a
    drawing call on the i-th buffer got, Render of it, its Release, the other calls on the renderer; and the pool losing
    a buffer. A buffer that was not got yet cannot be used. *)
Inductive pop := GetBuffer (taken : option nat) | NewBuf (w h : Z) | Draw (i : nat) (d : draw) | Show (i : nat) | Release (i : nat)
               | PClear | PResize (w h : Z) | PHide | PShowCursor | Lose (i : nat).
Definition pstep (s : st) (o : pop) : st * list Z :=
  match o with
  | GetBuffer taken =>   (* 296-300 *)
      match match taken with Some i => nth_error (pool s) i | None => None end, taken with
      | Some b, Some i => (St (h_clear (memory s) b) (rend s) (drop_nth (pool s) i) (pool_new s) (bufs s ++ [(b, true)]), [])
      | _, _ => let '(m, b) := alloc (memory s) (fst (pool_new s)) (snd (pool_new s)) in
                (St (h_clear m b) (rend s) (pool s) (pool_new s) (bufs s ++ [(b, true)]), [])
      end
  | NewBuf w h => let '(m, b) := alloc (memory s) w h in (St m (rend s) (pool s) (pool_new s) (bufs s ++ [(b, false)]), [])
  | Draw i d => match nth_error (bufs s) i with Some (b, _) => (St (h_draw (memory s) b d) (rend s) (pool s) (pool_new s) (bufs s), []) | None => (s, []) end
  | Show i => match nth_error (bufs s) i with
              | Some (b, _) => let '(m, r, out) := p_render (memory s) (rend s) b in (St m r (pool s) (pool_new s) (bufs s), out)
              | None => (s, []) end
  | Release i => match nth_error (bufs s) i with
                 | Some (b, true) => (St (memory s) (rend s) (pool s ++ [b]) (pool_new s) (bufs s), [])   (* 303-307; renderer.go:314-318 *)
                 | _ => (s, []) end
  | PClear => let '(m, r, out) := p_clear (memory s) (rend s) in (St m r (pool s) (pool_new s) (bufs s), out)
  | PResize w h => (* 225-242 *)
      let '(m, k) := alloc (memory s) w h in
      let '(m, r, out) := p_clear m (PR (pw (rend s)) k w h) in (St m r (pool s) (w, h) (bufs s), out)
  | PHide => (s, cursor_hide_code)
  | PShowCursor => (s, cursor_show_code)
  | Lose i => (St (memory s) (rend s) (drop_nth (pool s) i) (pool_new s) (bufs s), [])
  end.
Fixpoint prun (s : st) (os : list pop) : st * list Z :=
  match os with
  | [] => (s, [])
  | o :: rest => let '(s1, o1) := pstep s o in let '(s2, o2) := prun s1 rest in (s2, o1 ++ o2)
  end.
(** What the i-th buffer got holds now. *)
Definition holds (s : st) (i : nat) : option buffer := option_map (fun p => deref (memory s) (fst p)) (nth_error (bufs s) i).
