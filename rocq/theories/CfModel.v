(** Model of components/confirm: confirm.go, internal/domain/model/confirm.go, internal/domain/value/button.go,
    internal/infrastructure/keyboard.go. Labels are byte strings. The keymap is constant and the theme is
    never used; the focused flag of the component is always true (nothing in the package sets it to false). *)
From Verif Require Import Prelude Utf8 KeysModel.

Inductive result := RNone | RYes | RNo | RCanceled.
Definition l_yes : list Z := [89; 101; 115]. Definition l_no : list Z := [78; 111]. Definition l_cancel : list Z := [67; 97; 110; 99; 101; 108].
(* model/confirm.go:24-31 *)
Record cf := Cf { buttons : list (list Z); foc : Z; res : result; done : bool }.
Definition nb (c : cf) : Z := Z.of_nat (length (buttons c)).
(* 35-47 *)
Definition new_cf : cf := Cf [l_yes; l_no] 1 RNone false.
(* 62-85 *)
Definition with_buttons (c : cf) (ls : list (list Z)) : cf :=
  let n := Z.of_nat (length ls) in
  let f := if n <=? foc c then n - 1 else foc c in
  Cf ls (if f <? 0 then 0 else f) (res c) (done c).
(* 200-209 *)
Definition with_foc (c : cf) (i : Z) : cf := Cf (buttons c) i (res c) (done c).
(* 93-102 *)
Fixpoint find_no (ls : list (list Z)) (i : Z) : option Z := match ls with [] => None | l :: r => if list_eqb l l_no then Some i else find_no r (i + 1) end.
Definition default_no (c : cf) : cf := with_foc c (match find_no (buttons c) 0 with Some i => i | None => nb c - 1 end).
(* 105-120 *)
Definition move_left (c : cf) : cf := with_foc c (if foc c - 1 <? 0 then nb c - 1 else foc c - 1).
Definition move_right (c : cf) : cf := with_foc c (if nb c <=? foc c + 1 then 0 else foc c + 1).
(* 212-227 *)
Definition label_result (c : cf) (l : list Z) : result :=
  if list_eqb l l_yes then RYes else if list_eqb l l_no then RNo else if list_eqb l l_cancel then RCanceled else if foc c =? 0 then RYes else RNo.
(* 123-139 *)
Definition confirm (c : cf) : cf :=
  if (foc c <? 0) || (nb c <=? foc c) then c else Cf (buttons c) (foc c) (label_result c (nth (Z.to_nat (foc c)) (buttons c) [])) true.
(* button.go:13-48: the key is the first byte *)
Definition lower (r : Z) : Z := if (65 <=? r) && (r <=? 90) then r + 32 else r.
Definition matches_key (l : list Z) (r : Z) : bool := lower (hd 0 l) =? lower r.
(* 142-151 *)
Fixpoint find_key (ls : list (list Z)) (r i : Z) : option Z := match ls with [] => None | l :: t => if matches_key l r then Some i else find_key t r (i + 1) end.
Definition confirm_key (c : cf) (r : Z) : cf := match find_key (buttons c) r 0 with Some i => confirm (with_foc c i) | None => c end.
(* 154-163 *)
Definition cancel (c : cf) : cf := Cf (buttons c) (foc c) RCanceled true.

(* keyboard.go:37-58, confirm.go:152-194; the message returned *)
Definition handle (c : cf) (k : keymsg) : cf * option result :=
  if done c then (c, None)
  else match ktype k with
       | KLeft => (move_left c, None) | KRight => (move_right c, None)
       | KTab => (if kshift k then move_left c else move_right c, None)
       | KEnter => let c' := confirm c in (c', Some (res c'))
       | KEsc | KCtrlC => (cancel c, Some RCanceled)
       | KRune => let c' := confirm_key c (krune k) in (c', if done c' then Some (res c') else None)
       | _ => (c, None)
       end.
Inductive cop := CKey (k : keymsg) | CAffirmative (l : list Z) | CNegative (l : list Z) | CWithCancel (b : bool) | CDefaultYes | CDefaultNo.
Definition base2 (c : cf) : list (list Z) := if nb c <? 2 then [l_yes; l_no] else buttons c.
(* confirm.go:73-119 *)
Definition cstep (c : cf) (o : cop) : cf :=
  match o with
  | CKey k => fst (handle c k)
  | CAffirmative l => with_buttons c (match base2 c with _ :: r => l :: r | [] => [] end)
  | CNegative l => with_buttons c (match base2 c with a :: _ :: r => a :: l :: r | x => x end)
  | CWithCancel b => with_buttons c (if b && (nb c =? 2) then buttons c ++ [l_cancel] else if negb b && (nb c =? 3) then firstn 2 (buttons c) else buttons c)
  | CDefaultYes => with_foc c 0
  | CDefaultNo => default_no c
  end.
Definition csteps (os : list cop) (c : cf) : cf := fold_left cstep os c.

(** The public component: title, description and the dialog above (model/confirm.go:24-31, 50-59). *)
Record pub := Pub { ptitle : list Z; pdesc : list Z; dom : cf }.
(* confirm.go:54-60 *)
Definition pnew (t : list Z) : pub := Pub t [] new_cf.
Inductive pop := PDescription (d : list Z) | POp (o : cop).
(* confirm.go:63-69; every other method keeps title and description *)
Definition pstep (p : pub) (o : pop) : pub := match o with PDescription d => Pub (ptitle p) d (dom p) | POp o => Pub (ptitle p) (pdesc p) (cstep (dom p) o) end.
Definition psteps (os : list pop) (p : pub) : pub := fold_left pstep os p.
(* confirm.go:122-144 *)
Definition is_yes (c : cf) : bool := match res c with RYes => true | _ => false end.
Definition is_no (c : cf) : bool := match res c with RNo => true | _ => false end.
Definition is_canceled (c : cf) : bool := match res c with RCanceled => true | _ => false end.
(* confirm.go:233-243 *)
Definition rbutton (l : list Z) (f : bool) : list Z := if f then [91; 32] ++ l ++ [32; 93] else [40; 32] ++ l ++ [32; 41].
(* confirm.go:218-230 *)
Fixpoint rbuttons (ls : list (list Z)) (i f : Z) : list Z :=
  match ls with [] => [] | l :: r => (if 0 <? i then [32; 32] else []) ++ rbutton l (i =? f) ++ rbuttons r (i + 1) f end.
(* confirm.go:197-215 *)
Definition pview (p : pub) : list Z :=
  ptitle p ++ [10] ++ (if negb (length (pdesc p) =? 0)%nat then pdesc p ++ [10] else []) ++ [10] ++ rbuttons (buttons (dom p)) 0 (foc (dom p)).
