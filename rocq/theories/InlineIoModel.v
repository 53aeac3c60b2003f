(** Model of the inline renderer over an output whose writes can fail: tea/internal/infrastructure/renderer/inline.go:77-151.
    Render hands the frame to the output in one Write; on an error it returns before its state is updated. The program goes on after
    such an error (tea/internal/application/program/program.go:515-516). *)
From Verif Require Import Prelude InlineModel InlineSpec InlineFrames.

Section Io.
Variable zw : Z -> bool.
(** A call, or a Render whose Write - if it comes to one - fails after the output has taken [k] bytes. *)
Inductive ocall := Works (c : scall) | Fails (v : list (list item)) (k : nat).
(* inline.go:82-84 *)
Definition unchanged (r : irend) (view : list Z) : bool := list_eqb view (last_view r) && (0 <? Z.of_nat (nrend r)).
(* inline.go:138-149 *)
Definition io_call (r : irend) (c : ocall) : bool * (irend * list Z) :=
  match c with
  | Works c => (true, do_icall zw r (to_icall c))
  | Fails v k => match to_icall (SRender v) with
                 | IRender view => if unchanged r view then (true, (r, [])) else (false, (r, firstn k (snd (irender zw r view))))
                 | _ => (true, (r, []))
                 end
  end.
Fixpoint io_calls (r : irend) (cs : list ocall) : list bool * (irend * list Z) :=
  match cs with
  | [] => ([], (r, []))
  | c :: rest => let '(ok, (r1, o1)) := io_call r c in let '(oks, (r2, o2)) := io_calls r1 rest in (ok :: oks, (r2, o1 ++ o2))
  end.
End Io.
