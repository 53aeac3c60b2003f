(** What the theorems of RpProps say about programs that draw into pooled buffers. *)
From Verif Require Import Prelude RenderModel RenderSpec RpModel.

(** The drawing calls made on the i-th buffer got, in order. *)
Definition drawn (i : nat) (os : list pop) : list draw := flat_map (fun o => match o with Draw j d => if (j =? i)%nat then [d] else [] | _ => [] end) os.
(** What drawing gives, on a buffer nobody else has. *)
Definition drawing (B : buffer) (ds : list draw) : buffer :=
  fold_left (fun B d => match d with
                        | DSet x y c => set B x y c
                        | DString x y cl s => fst (set_string B x y cl s)
                        | DLine y cl s => set_line B y cl s
                        | DClear => new_buffer (Z.of_nat (bw B)) (Z.of_nat (bh B))
                        | DFill c => fill B c
                        end) ds B.
(** The program uses only buffers it has got ([got] so far) and has not released ([gone]). *)
Fixpoint careful (got : nat) (gone : list nat) (os : list pop) : Prop :=
  match os with
  | [] => True
  | o :: rest =>
      match o with
      | GetBuffer _ | NewBuf _ _ => careful (S got) gone rest
      | Draw i _ | Show i => (i < got)%nat /\ ~ In i gone /\ careful got gone rest
      | Release i => (i < got)%nat /\ ~ In i gone /\ careful got (i :: gone) rest
      | _ => careful got gone rest
      end
  end.
(** How many buffers a program gets. *)
Definition gets (os : list pop) : nat := length (filter (fun o => match o with GetBuffer _ | NewBuf _ _ => true | _ => false end) os).

(** The call a step is, as one of RenderModel's: Render gets the value the buffer holds at that time. *)
Definition as_call (s : st) (o : pop) : list call :=
  match o with
  | Show i => match holds s i with Some B => [Render B] | None => [] end
  | PClear => [Clear] | PResize w h => [Resize w h] | PHide => [HideCursor] | PShowCursor => [ShowCursor]
  | _ => []
  end.
Fixpoint as_calls (s : st) (os : list pop) : list call :=
  match os with [] => [] | o :: rest => as_call s o ++ as_calls (fst (pstep s o)) rest end.

(** Drawing single-column characters only, in buffers that fit a W x H terminal. *)
Definition fits_draw (cw : Z -> Z) (d : draw) : Prop :=
  match d with
  | DSet _ _ c | DFill c => cell_ok cw c
  | DString _ _ cl s | DLine _ cl s => Forall (fun g => cell_ok cw (Cell (fst g) s (snd g))) cl
  | DClear => True
  end.
Definition fits (cw : Z -> Z) (W H : Z) (o : pop) : Prop :=
  match o with Draw _ d => fits_draw cw d | NewBuf w h | PResize w h => w <= W /\ h <= H | _ => True end.
