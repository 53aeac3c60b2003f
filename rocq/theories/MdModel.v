(** Model of components/modal: modal.go, internal/domain/model/{modal,button}.go, internal/domain/value/{size,position}.go,
    internal/domain/service/layout.go, internal/infrastructure/keybindings.go.
    Key strings, button keys and actions are lists of code points. [fold_eq] is strings.EqualFold. Title and content are byte
    strings; a drawn row is a list of cells, where a byte of text is one cell (true for ASCII texts). *)
From Verif Require Import Prelude Utf8 KeysModel.

Record button := Button { blabel : list Z; bkey : list Z; baction : list Z }.
Record bindings := Bind { kclose : list (list Z); knext : list (list Z); kprev : list (list Z); kact : list (list Z) }.
(* keybindings.go:17-24 *)
Definition s_esc : list Z := [101; 115; 99]. Definition s_tab : list Z := [116; 97; 98]. Definition s_enter : list Z := [101; 110; 116; 101; 114].
Definition s_shift_tab : list Z := [115; 104; 105; 102; 116; 43; 116; 97; 98].
Definition default_bindings : bindings := Bind [s_esc] [s_tab; [8594]] [s_shift_tab; [8592]] [s_enter].
(* 47-55 *)
Definition matches (k : keymsg) (ks : list (list Z)) : bool := existsb (list_eqb (key_string k)) ks.

(* modal.go:49-56, model/modal.go:12-21; position: None is centred *)
Record modal := Modal { title : list Z; content : list Z; btns : list button; width : Z; height : Z; pos : option (Z * Z); foc : Z; visible : bool; dim : bool;
  kb : bindings; tw : Z; th : Z }.
(* modal.go:60-79 *)
Definition new_modal (t c : list Z) : modal := Modal t c [] 40 10 None 0 false false default_bindings 80 24.
Definition nbtn (m : modal) : Z := Z.of_nat (length (btns m)).
Definition set_foc (m : modal) (f : Z) : modal := Modal (title m) (content m) (btns m) (width m) (height m) (pos m) f (visible m) (dim m) (kb m) (tw m) (th m).
Definition set_visible (m : modal) (v : bool) : modal := Modal (title m) (content m) (btns m) (width m) (height m) (pos m) (foc m) v (dim m) (kb m) (tw m) (th m).
(* model/modal.go:153-194 *)
Definition focus_next (m : modal) : modal := if nbtn m =? 0 then m else set_foc m (Z.rem (foc m + 1) (nbtn m)).
Definition focus_prev (m : modal) : modal := if nbtn m =? 0 then m else set_foc m (if foc m - 1 <? 0 then nbtn m - 1 else foc m - 1).
(* 197-202 *)
Definition focused_button (m : modal) : option button := if (nbtn m =? 0) || (foc m <? 0) || (nbtn m <=? foc m) then None else nth_error (btns m) (Z.to_nat (foc m)).
(* layout.go:28-62 *)
Definition center1 (t m : Z) : Z := let x := Z.quot (t - m) 2 in if x <? 0 then 0 else x.
Definition position (m : modal) : Z * Z := match pos m with None => (center1 (tw m) (width m), center1 (th m) (height m)) | Some p => p end.

Section Keys.
Variable fold_eq : list Z -> list Z -> bool.
(* modal.go:227-280: the modal and the action of the ButtonPressedMsg *)
Definition handle_key (m : modal) (k : keymsg) : modal * option (list Z) :=
  if matches k (kclose (kb m)) then (set_visible m false, None)
  else if matches k (knext (kb m)) then (focus_next m, None)
  else if matches k (kprev (kb m)) then (focus_prev m, None)
  else match (if matches k (kact (kb m)) then focused_button m else None) with
       | Some b => (m, Some (baction b))
       | None => match find (fun b => fold_eq (key_string k) (bkey b)) (btns m) with Some b => (m, Some (baction b)) | None => (m, None) end
       end.
(* modal.go:201-224 *)
Inductive mmsg := MKey (k : keymsg) | MResize (w h : Z) | MOther.
Definition update (m : modal) (g : mmsg) : modal * option (list Z) :=
  if negb (visible m) then (m, None)
  else match g with
       | MKey k => handle_key m k
       | MResize w h => (Modal (title m) (content m) (btns m) (width m) (height m) (pos m) (foc m) (visible m) (dim m) (kb m) w h, None)
       | MOther => (m, None)
       end.
Inductive mop := OMsg (g : mmsg) | OSize (w h : Z) | OPos (x y : Z) | OCentered | OButtons (bs : list button) | ODim (b : bool) | OShow | OHide | OBind (b : bindings).
(* modal.go:82-193 *)
Definition mstep (m : modal) (o : mop) : modal :=
  match o with
  | OMsg g => fst (update m g)
  | OSize w h => Modal (title m) (content m) (btns m) w h (pos m) (foc m) (visible m) (dim m) (kb m) (tw m) (th m)
  | OPos x y => Modal (title m) (content m) (btns m) (width m) (height m) (Some (x, y)) (foc m) (visible m) (dim m) (kb m) (tw m) (th m)
  | OCentered => Modal (title m) (content m) (btns m) (width m) (height m) None (foc m) (visible m) (dim m) (kb m) (tw m) (th m)
  | OButtons bs => Modal (title m) (content m) bs (width m) (height m) (pos m) 0 (visible m) (dim m) (kb m) (tw m) (th m)
  | ODim b => Modal (title m) (content m) (btns m) (width m) (height m) (pos m) (foc m) (visible m) b (kb m) (tw m) (th m)
  | OShow => set_visible m true
  | OHide => set_visible m false
  | OBind b => Modal (title m) (content m) (btns m) (width m) (height m) (pos m) (foc m) (visible m) (dim m) b (tw m) (th m)
  end.
Definition msteps (os : list mop) (m : modal) : modal := fold_left mstep os m.
End Keys.

(* ---------- View (modal.go:283-424) ---------- *)
(** strings.Split(s, "\n") *)
Fixpoint split_lines (s cur : list Z) : list (list Z) := match s with [] => [cur] | c :: r => if c =? 10 then cur :: split_lines r [] else split_lines r (cur ++ [c]) end.
(** strings.Repeat with one-cell strings; None: panic *)
Definition rep (c n : Z) : option (list Z) := if n <? 0 then None else Some (repeat c (Z.to_nat n)).
(* 416-424 *)
Definition pad_or_truncate (t : list Z) (w : Z) : option (list Z) :=
  let n := Z.of_nat (length t) in
  if w <? n then (if 3 <? w then Some (firstn (Z.to_nat (w - 3)) t ++ [46; 46; 46]) else if w <? 0 then None else Some (firstn (Z.to_nat w) t))
  else match rep 32 (w - n) with Some s => Some (t ++ s) | None => None end.
(** strings.Join(parts, "  ") *)
Fixpoint join2 (l : list (list Z)) : list Z := match l with [] => [] | [a] => a | a :: r => a ++ 32 :: 32 :: join2 r end.
(* 391-413 *)
Definition button_text (m : modal) : list Z :=
  join2 (map (fun p => let '(i, b) := p in if Z.of_nat i =? foc m then [60; 32] ++ blabel b ++ [32; 62] else [91; 32] ++ blabel b ++ [32; 93]) (combine (seq 0 (length (btns m))) (btns m))).
(** a drawn row: terminal row and column (from 1, as in the escape sequence) and cells *)
Record row := Row { rrow : Z; rcol : Z; cells : list Z }.
Definition obind {A B} (x : option A) (f : A -> option B) : option B := match x with Some a => f a | None => None end.
Definition framed (l r : Z) (t : option (list Z)) : option (list Z) := obind t (fun c => Some (l :: c ++ [r])).
Definition boxed (t : option (list Z)) : option (list Z) := framed 9474 9474 (obind t (fun c => Some (32 :: c ++ [32]))).
Fixpoint all_some {A} (l : list (option A)) : option (list A) := match l with [] => Some [] | x :: r => obind x (fun a => obind (all_some r) (fun b => Some (a :: b))) end.
(* 336-388; None: panic *)
Definition render_box (m : modal) : option (list row) :=
  let '(x, y) := position m in let w := width m in let h := height m in
  let at_ (r : Z) (c : option (list Z)) : option row := obind c (fun c => Some (Row r (x + 1) c)) in
  let titled := match title m with [] => false | _ => true end in
  let start := if titled then y + 4 else y + 2 in
  let ch := h - 4 - (if titled then 2 else 0) in
  let lines := firstn (Z.to_nat ch) (split_lines (content m) []) in
  all_some
    ([at_ (y + 1) (framed 9484 9488 (rep 9472 (w - 2)))] ++
     (if titled then [at_ (y + 2) (boxed (pad_or_truncate (title m) (w - 4))); at_ (y + 3) (framed 9500 9508 (rep 9472 (w - 2)))] else []) ++
     map (fun p => let '(i, l) := p in at_ (start + Z.of_nat i) (boxed (pad_or_truncate l (w - 4)))) (combine (seq 0 (length lines)) lines) ++
     (if nbtn m =? 0 then [] else [at_ (y + h - 3) (framed 9500 9508 (rep 9472 (w - 2))); at_ (y + h - 2) (boxed (pad_or_truncate (button_text m) (w - 4)))]) ++
     [at_ (y + h - 1) (framed 9492 9496 (rep 9472 (w - 2)))]).
(* 314-333: the background, one list of cells per terminal line *)
Definition dimmed (m : modal) : list (list Z) :=
  let '(x, y) := position m in
  map (fun r => map (fun c => if (x <=? Z.of_nat c) && (Z.of_nat c <? x + width m) && (y <=? Z.of_nat r) && (Z.of_nat r <? y + height m) then 32 else 9617) (seq 0 (Z.to_nat (tw m)))) (seq 0 (Z.to_nat (th m))).

(* 283-311: nothing for a hidden modal; the background lines if asked for; the box; None: panic *)
Definition view (m : modal) : option (list (list Z) * list row) :=
  if visible m then obind (render_box m) (fun rows => Some ((if dim m then dimmed m else []), rows)) else Some ([], []).
(* 427-439 *)
Definition focused_action (m : modal) : list Z := match focused_button m with Some b => baction b | None => [] end.
