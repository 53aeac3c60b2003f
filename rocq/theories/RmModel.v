(** Model of one Renderer used from several goroutines: render/internal/application/renderer.go:75-257. Each method holds the mutex;
    its body is taken apart into its accesses to the fields and to the writer. Frames are values here: nobody draws in a buffer while
    it is rendered. The last part is about a goroutine that does: it works on the memory of RpModel. *)
From Verif Require Import Prelude RenderModel RpModel MxModel.

Record rsh := Rsh { rr : renderer; rout : list Z }.
Inductive act := AErase | AMove (x y : Z) | ACell (c : cell) | AHide | AShow | AWid (w : Z) | AHei (h : Z) | APrev (b : buffer) | APrevClear.
Definition do_act (s : rsh) (a : act) : rsh :=
  let r := rr s in
  let wr p := let '(w, o) := p in Rsh (Renderer w (prev r) (rwidth r) (rheight r)) (rout s ++ o) in
  match a with
  | AErase => wr (w_clear (rw r))
  | AMove x y => wr (w_move (rw r) x y)
  | ACell c => wr (w_cell (rw r) c)
  | AHide => Rsh r (rout s ++ cursor_hide_code)
  | AShow => Rsh r (rout s ++ cursor_show_code)
  | AWid w => Rsh (Renderer (rw r) (prev r) w (rheight r)) (rout s)
  | AHei h => Rsh (Renderer (rw r) (prev r) (rwidth r) h) (rout s)
  | APrev b => Rsh (Renderer (rw r) b (rwidth r) (rheight r)) (rout s)
  | APrevClear => Rsh (Renderer (rw r) (clear_buf (prev r)) (rwidth r) (rheight r)) (rout s)
  end.
(* 138-146, 168-177 *)
Definition cells_acts (ops : list op) : list act := flat_map (fun o => [AMove (ox o) (oy o); ACell (ocell o)]) ops.
(* 124-161 *)
Definition full_acts (b : buffer) : list act :=
  AErase :: AMove 0 0 :: cells_acts (diff_full b) ++ [AWid (Z.of_nat (bw b)); AHei (Z.of_nat (bh b)); APrev b].
(* 204-222 *)
Definition clear_acts : list act := [AErase; AMove 0 0; APrevClear].

(** where a body is: entered, the sizes compared, the frames compared, or accesses still to make *)
Inductive rpos := RStart | RDiff | ROps (ops : list op) | RTodo (l : list act).
Definition r_lock (c : call) : bool := true.
Definition r_first (c : call) : rpos := RStart.
Definition r_next (c : call) (p : rpos) (s : rsh) : (rpos * rsh) + unit :=
  let r := rr s in
  match c, p with
  | _, RTodo [] => inr tt
  | _, RTodo (a :: l) => inl (RTodo l, do_act s a)
  (* 75-119 *)
  | Render b, RStart => inl (if negb ((Z.of_nat (bw b) =? rwidth r) && (Z.of_nat (bh b) =? rheight r)) then RTodo (full_acts b) else RDiff, s)
  | Render b, RDiff => inl (match diff (prev r) b with [] => RTodo [] | ops => ROps ops end, s)
  | Render b, ROps ops => let ops := remove_redundant ops (wstyle (rw r)) in
      inl (RTodo (if should_full_redraw (Z.of_nat (length ops)) (rwidth r * rheight r) then full_acts b else cells_acts ops ++ [APrev b]), s)
  | RenderNil, RStart => inl (RTodo [], s)
  (* 196-201, 225-242, 245-266 *)
  | Clear, RStart => inl (RTodo clear_acts, s)
  | Resize w h, RStart => inl (RTodo (AWid w :: AHei h :: APrev (new_buffer w h) :: clear_acts), s)
  | HideCursor, RStart => inl (RTodo [AHide], s)
  | ShowCursor, RStart => inl (RTodo [AShow], s)
  | _, _ => inl (RTodo [], s)        (* not a position of this body *)
  end.
Definition r_exec (sched : list nat) (w h : Z) (ps : list (list call)) : sys rsh rpos call unit unit Empty_set :=
  exec r_lock r_first r_next (fun (o : Empty_set) (_ : unit) => match o with end) sched (begin (Rsh (new_renderer w h) []) tt (map (map Do) ps)).

(** Render of a buffer in which another goroutine draws [ds] after the frames were compared and written, before the copy is
    made for the next time (107-116): the drawing calls take no lock. *)
Definition race_full (m : mem) (r : prend) (b b' : hbuf) (ds : list draw) : mem * prend * list Z :=
  let '(w1, o1) := w_clear (pw r) in
  let '(w2, o2) := w_move w1 0 0 in
  let '(w3, o3) := apply_ops w2 (diff_full (deref m b)) in
  let '(m', k) := h_clone (fold_left (fun m d => h_draw m b' d) ds m) b in
  (m', PR w3 k (Z.of_nat (hw b)) (Z.of_nat (hh b)), o1 ++ o2 ++ o3).
Definition race_render (m : mem) (r : prend) (b b' : hbuf) (ds : list draw) : mem * prend * list Z :=
  if negb ((Z.of_nat (hw b) =? pwid r) && (Z.of_nat (hh b) =? phei r)) then race_full m r b b' ds
  else match diff (deref m (hprev r)) (deref m b) with
       | [] => (fold_left (fun m d => h_draw m b' d) ds m, r, [])
       | ops =>
           let ops := remove_redundant ops (wstyle (pw r)) in
           if should_full_redraw (Z.of_nat (length ops)) (pwid r * phei r) then race_full m r b b' ds
           else let '(w1, o1) := apply_ops (pw r) ops in
                let '(m', k) := h_clone (fold_left (fun m d => h_draw m b' d) ds m) b in (m', PR w1 k (pwid r) (phei r), o1)
       end.
