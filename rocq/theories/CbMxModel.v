(** Model of one clipboard with history used from several goroutines: clipboard/clipboard.go Write, WriteHTML, WriteRTF, GetHistory,
    ClearHistory, RemoveExpiredHistory over clipboard_manager.go:71-83, 160-206, 263-310 and clipboard_history.go, whose methods
    hold its RWMutex from beginning to end. History stays enabled. The provider (the operating system's clipboard) takes one write at
    a time and is not protected by the history's lock. The clock is read inside the lock and never runs backwards; a call carries how
    far it has advanced since it was read last. Sorting the copy that GetHistory makes is local and left out here (C120). *)
From Verif Require Import Prelude CbModel MxModel.

(** What a goroutine does: a write, with the type recorded, whether the provider takes it, a fresh id and the time gone by. *)
Inductive wcall := WWrite (t : list Z) (m : mime) (ok : bool) (id dt : Z) | WHistory | WClear | WExpire (dt : Z).
(** The calls on the history. *)
Inductive hcall := XAdd (id : Z) (c : list Z) (m : mime) (dt : Z) | XAll | XClear | XExpire (dt : Z).
Inductive hres := XDone | XEntries (es : list entry) | XCount (n : Z).
Inductive hpos := QStart | QEntry (e : entry) | QLoaded (e : entry) (es : list entry) | QStored | QKept (es : list entry) (n : Z) | QReturn (r : hres).
Definition hst := (history * Z)%type.                      (* and the clock *)

(* clipboard_history.go:45, 84, 149, 159: Lock or RLock *)
Definition h_lock (c : hcall) : bool := match c with XAll => false | _ => true end.
Definition h_first (c : hcall) : hpos := QStart.
Definition set_entries (h : history) (es : list entry) : history := H es (maxSize h) (maxAge h).
Definition h_next (c : hcall) (p : hpos) (s : hst) : (hpos * hst) + hres :=
  let (h, clk) := s in
  match c, p with
  | _, QReturn r => inr r
  (* clipboard_history.go:44-64 *)
  | XAdd id t m dt, QStart => match t with [] => inl (QReturn XDone, s) | _ => inl (QEntry (E id t m (clk + dt)), (h, clk + dt)) end
  | XAdd _ _ _ _, QEntry e => inl (QLoaded e (entries h), s)
  | XAdd _ _ _ _, QLoaded e es => inl (QStored, (set_entries h (es ++ [e]), clk))
  | XAdd _ _ _ _, QStored => inl (QReturn XDone, (if (0 <? maxSize h) && (maxSize h <? Z.of_nat (length (entries h))) then set_entries h (tl (entries h)) else h, clk))
  (* 82-96 *)
  | XAll, QStart => inl (QReturn (XEntries (entries h)), s)
  (* 148-153 *)
  | XClear, QStart => inl (QReturn XDone, (set_entries h [], clk))
  (* 158-179; one reading of the clock for all entries *)
  | XExpire dt, QStart => if maxAge h <=? 0 then inl (QReturn (XCount 0), (h, clk + dt))
      else inl (QKept (filter (fun e => negb (expired (maxAge h) (clk + dt) e)) (entries h)) (Z.of_nat (length (filter (expired (maxAge h) (clk + dt)) (entries h)))), (h, clk + dt))
  | XExpire _, QKept es n => inl (QReturn (XCount n), (set_entries h es, clk))
  | _, _ => inl (QReturn XDone, s)                        (* not a position of this body *)
  end.
(* clipboard_manager.go:71-83: the provider first, then the history *)
Definition steps_of (w : wcall) : list (item hcall (list Z)) :=
  match w with
  | WWrite [] _ _ _ _ => []                                (* clipboard_content.go:32-42: refused *)
  | WWrite t m ok id dt => if ok then [Out t; Do (XAdd id t m dt)] else []
  | WHistory => [Do XAll]
  | WClear => [Do XClear]
  | WExpire dt => [Do (XExpire dt)]
  end.
Definition h_out (t : list Z) (x : list Z) : list Z := t.   (* the provider holds what was written last *)
Definition h_exec (sched : list nat) (n age : Z) (ps : list (list wcall)) : sys hst hpos hcall hres (list Z) (list Z) :=
  exec h_lock h_first h_next h_out sched (begin (new_history n age, 0) [] (map (flat_map steps_of) ps)).
