(** Model of how the program shows its model: /repo/tea/internal/application/program/program.go, the
    event loop's rendering (201-202, 228-243; the same in Start 327-369), renderView (505-522), and
    Suspend/Resume as far as they concern it (710-714, 767-769, 839-854).

    Simplifications: one event at a time (a Resume from another goroutine does not interleave with an
    event); commands and the terminal's modes are in TeaModel and LifeModel. *)
From Verif Require Import Prelude InlineModel.

Section Display.
Variable zw : Z -> bool.
Variables Mdl Msg : Type.
Variable update : Mdl -> Msg -> Mdl.
Variable view : Mdl -> list Z.
Variable size : Msg -> option (Z * Z).     (* Some (w, h) for a WindowSizeMsg *)
Variable altscreen : bool.

Record prog := Prog { mdl : Mdl; rend : option irend; susp : bool }.

(* 505-522 *)
Definition render_view (p : prog) : prog * list Z :=
  if altscreen then (p, view (mdl p))
  else
    let r := match rend p with Some r => r | None => new_inline 0 0 end in
    let '(r', o) := irender zw r (view (mdl p)) in (Prog (mdl p) (Some r') (susp p), o).

(* 201-202 *)
Definition begin (m : Mdl) : prog * list Z := render_view (Prog m None false).

(* 228-243: a message that is neither QuitMsg, BatchMsg nor SequenceMsg *)
Definition handle (p : prog) (msg : Msg) : prog * list Z :=
  let rd := match size msg, rend p with
            | Some (w, h), Some r => if altscreen then rend p else Some (iresize r w h)
            | _, _ => rend p
            end in
  render_view (Prog (update (mdl p) msg) rd (susp p)).

(* 710-714, 767-769 *)
Definition suspend (p : prog) : prog * list Z := (Prog (mdl p) (rend p) true, []).
(* 798-802, 839-854 *)
Definition resume (p : prog) : prog * list Z :=
  if susp p then render_view (Prog (mdl p) (option_map irepaint (rend p)) false) else (p, []).

Inductive event := Handle (m : Msg) | Suspend | Resume.
Definition do_event (p : prog) (e : event) : prog * list Z :=
  match e with Handle m => handle p m | Suspend => suspend p | Resume => resume p end.
Fixpoint do_events (p : prog) (es : list event) : prog * list Z :=
  match es with
  | [] => (p, [])
  | e :: r => let '(p1, o1) := do_event p e in let '(p2, o2) := do_events p1 r in (p2, o1 ++ o2)
  end.

(** Everything the program writes to its output while it shows [m] and handles [es]. *)
Definition session (m : Mdl) (es : list event) : prog * list Z :=
  let '(p0, o0) := begin m in let '(p1, o1) := do_events p0 es in (p1, o0 ++ o1).
End Display.
Arguments Handle {Msg} m.
Arguments Suspend {Msg}.
Arguments Resume {Msg}.
