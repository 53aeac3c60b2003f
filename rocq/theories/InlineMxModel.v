(** Model of one inline renderer used from several goroutines (the event loop draws, a command's Resume repaints, a resize comes):
    tea/internal/infrastructure/renderer/inline.go:77-176. Each method holds the mutex; its body is taken apart into its accesses to the
    fields and to the output. *)
From Verif Require Import Prelude InlineModel MxModel.

Section InMx.
Variable zw : Z -> bool.
Record ish := Ish { ir : irend; outp : list Z }.
Inductive ipos := IStart | IBuilt (ls : list (list Z)) (buf : list Z) | IWritten (ls : list (list Z)) | ICounted (ls : list (list Z)) | IViewed (ls : list (list Z)) | IWidthSet | IHeightSet | IViewCleared | IReturn.
(* inline.go:78, 161, 170 *)
Definition i_lock (c : icall) : bool := true.
Definition i_first (c : icall) : ipos := IStart.
Definition i_next (c : icall) (p : ipos) (s : ish) : (ipos * ish) + unit :=
  let r := ir s in
  let set r' := Ish r' (outp s) in
  match c, p with
  | _, IReturn => inr tt
  (* 82-134 *)
  | IRender v, IStart => if list_eqb v (last_view r) && (0 <? Z.of_nat (nrend r)) then inl (IReturn, s)
      else let ls := clip (ih r) (split_nl v) in
           inl (IBuilt ls ((if (1 <? nrend r)%nat then cursor_up (Z.of_nat (nrend r) - 1) else []) ++ [13] ++ out_lines zw (iw r) (last_lines r) 0 ls ++ (if (length ls <? nrend r)%nat then erase_below else []) ++ [13]), s)
  (* 138-149 *)
  | IRender _, IBuilt ls buf => inl (IWritten ls, Ish r (outp s ++ buf))
  | IRender _, IWritten ls => inl (ICounted ls, set (IR (iw r) (ih r) (last_view r) (last_lines r) (length ls)))
  | IRender v, ICounted ls => inl (IViewed ls, set (IR (iw r) (ih r) v (last_lines r) (nrend r)))
  | IRender _, IViewed ls => inl (IReturn, set (IR (iw r) (ih r) (last_view r) ls (nrend r)))
  (* 163-164, 172-175 *)
  | IResize w _, IStart => inl (IWidthSet, set (IR w (ih r) (last_view r) (last_lines r) (nrend r)))
  | IResize _ h, IWidthSet => inl (IHeightSet, set (IR (iw r) h (last_view r) (last_lines r) (nrend r)))
  | IResize _ _, IHeightSet | IRepaint, IStart => inl (IViewCleared, set (IR (iw r) (ih r) [] (last_lines r) (nrend r)))
  | IResize _ _, IViewCleared | IRepaint, IViewCleared => inl (IReturn, set (IR (iw r) (ih r) (last_view r) [] (nrend r)))
  | _, _ => inl (IReturn, s)        (* not a position of this body *)
  end.
Definition i_exec (sched : list nat) (w h : Z) (ps : list (list icall)) : sys ish ipos icall unit unit Empty_set :=
  exec i_lock i_first i_next (fun (o : Empty_set) (_ : unit) => match o with end) sched (begin (Ish (new_inline w h) []) tt (map (map Do) ps)).
End InMx.
