(** Vocabulary for the terminal properties. *)
From Verif Require Import Prelude TermEmu TmModel.

(** A screen between two control sequences: cursor and remembered position on the screen. *)
Record wf (t : term) : Prop := Wf {
  wf_p : pst t = Ground; wf_x : 0 <= cx t < tw t; wf_y : 0 <= cy t < th t;
  wf_s : 0 <= fst (saved t) < tw t /\ 0 <= snd (saved t) < th t }.

(** Calls whose text holds no ESC (text with its own control sequences can do anything). *)
Definition plain_call (c : call) : Prop :=
  match c with Write s | WriteAt _ _ s => ~ In 27 s | _ => True end.

(** What the user sees: the cells and the cursor. *)
Definition same_view (a b : term) : Prop :=
  grid a = grid b /\ cx a = cx b /\ cy a = cy b /\ pend a = pend b.

(** Only the cursor may differ. *)
Definition same_but_cursor (a b : term) : Prop :=
  grid a = grid b /\ tpn a = tpn b /\ curvis a = curvis b /\ alt a = alt b /\ saved a = saved b /\
  tw a = tw b /\ th a = th b /\ pst a = pst b.

(** A call made when the output accepts everything: its result and the screen it leaves. *)
Definition ok_of {T} cw mkraw (c : call) (a : ansi T) (d : dev T) : bool :=
  let '(ok, _, _, _) := do_call cw T mkraw c [] a d in ok.
Definition screen_of {T} cw mkraw (c : call) (a : ansi T) (d : dev T) : term :=
  let '(_, _, _, d) := do_call cw T mkraw c [] a d in scr T d.

(** Printable text each of whose characters takes one column. *)
Definition narrow_text (cw : Z -> Z) (s : list Z) : Prop :=
  Forall (fun c => 32 <= c /\ c <> 127 /\ cw c = 1) s.

(** The cursor state after a list of calls with their results: the last successful
    HideCursor or ShowCursor decides. *)
Definition vis_after (v : bool) (l : list (call * bool)) : bool :=
  fold_left (fun v p => match p with
                        | (HideCursor, true) => false
                        | (ShowCursor, true) => true
                        | _ => v end) l v.

(** A terminal as a program finds it: normal screen, original settings. *)
Definition start {T} (t : term) (tio : T) : dev T := Dev T t None tio.
