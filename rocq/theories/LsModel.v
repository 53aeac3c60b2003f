(** Model of components/list: list.go, internal/domain/model/list.go,
    internal/domain/service/{navigation,filter}.go, internal/infrastructure/keybindings.go.

    Items are of an arbitrary type [A] (Go: a value with a label). A selection map is a list of the
    indices present in it. Theming of the view: ThModel. *)
From Verif Require Import Prelude KeysModel.

Section List_.
Variable A : Type.

(* domain/model/list.go:10-25; [filt] is the filter function in force (given or default) *)
Record lst := L { items : list A; filtered : list A; sel : list Z; foc : Z; single : bool;
                  filt : A -> list Z -> bool; query : list Z; height : Z; scroll : Z }.
Definition count (l : lst) : Z := Z.of_nat (length (filtered l)).

(* filter.go:19-37 *)
Definition filter_items (its : list A) (q : list Z) (f : A -> list Z -> bool) : list A :=
  match q with [] => its | _ => filter (fun a => f a q) its end.

(* navigation.go:72-95; Go division truncates *)
Definition calc_scroll (f h n : Z) : Z :=
  if (n =? 0) || (h <=? 0) then 0
  else if n <=? h then 0
  else let c := f - Z.quot h 2 in if c <? 0 then 0 else if n - h <? c then n - h else c.
(* list.go:364-370 *)
Definition rescroll (l : lst) : lst :=
  L (items l) (filtered l) (sel l) (foc l) (single l) (filt l) (query l) (height l) (calc_scroll (foc l) (height l) (count l)).
Definition set_foc (l : lst) (f : Z) : lst :=
  L (items l) (filtered l) (sel l) f (single l) (filt l) (query l) (height l) (scroll l).
Definition set_sel (l : lst) (s : list Z) : lst :=
  L (items l) (filtered l) s (foc l) (single l) (filt l) (query l) (height l) (scroll l).
(* list.go:350-353 *)
Definition apply_filter (l : lst) : lst :=
  L (items l) (filter_items (items l) (query l) (filt l)) [] (foc l) (single l) (filt l) (query l) (height l) (scroll l).
(* 356-361 *)
Definition reset_focus (l : lst) : lst := rescroll (if count l <=? foc l then set_foc l 0 else l).

(* 28-71 with the default filter [dflt] (filter.go:40-48) *)
Definition new_list (dflt : A -> list Z -> bool) (its : list A) (one : bool) : lst :=
  reset_focus (apply_filter (L its [] [] 0 one dflt [] 10 0)).
(* 81-86 *)
Definition with_filter (l : lst) (f : A -> list Z -> bool) : lst :=
  apply_filter (L (items l) (filtered l) (sel l) (foc l) (single l) f (query l) (height l) (scroll l)).
(* 89-94 *)
Definition with_height (l : lst) (h : Z) : lst :=
  rescroll (L (items l) (filtered l) (sel l) (foc l) (single l) (filt l) (query l) h (scroll l)).
(* 229-240 *)
Definition set_query (l : lst) (q : list Z) : lst :=
  reset_focus (apply_filter (L (items l) (filtered l) (sel l) (foc l) (single l) (filt l) q (height l) (scroll l))).

(* navigation.go:12-68 *)
Definition nav_up (i n : Z) : Z := if n =? 0 then 0 else if i <=? 0 then n - 1 else i - 1.
Definition nav_down (i n : Z) : Z := if n =? 0 then 0 else if n - 1 <=? i then 0 else i + 1.
Definition nav_pgup (i p n : Z) : Z := if n =? 0 then 0 else if i - p <? 0 then 0 else i - p.
Definition nav_pgdn (i p n : Z) : Z := if n =? 0 then 0 else if n <=? i + p then n - 1 else i + p.
Definition nav_end (n : Z) : Z := if n =? 0 then 0 else n - 1.
(* list.go:97-160 *)
Definition move (l : lst) (to : Z) : lst := if count l =? 0 then l else rescroll (set_foc l to).
Definition move_up (l : lst) : lst := move l (nav_up (foc l) (count l)).
Definition move_down (l : lst) : lst := move l (nav_down (foc l) (count l)).
Definition page_up (l : lst) : lst := move l (nav_pgup (foc l) (height l) (count l)).
Definition page_down (l : lst) : lst := move l (nav_pgdn (foc l) (height l) (count l)).
Definition to_start (l : lst) : lst := move l 0.
Definition to_end (l : lst) : lst := move l (nav_end (count l)).

Definition mem (i : Z) (s : list Z) : bool := existsb (Z.eqb i) s.
Definition remove_ (i : Z) (s : list Z) : list Z := filter (fun j => negb (j =? i)) s.
(* 163-185 *)
Definition toggle (l : lst) : lst :=
  if count l =? 0 then l
  else if single l then set_sel l [foc l]
  else if mem (foc l) (sel l) then set_sel l (remove_ (foc l) (sel l)) else set_sel l (foc l :: sel l).
(* 188-200 *)
Definition select_all (l : lst) : lst :=
  if single l || (count l =? 0) then l else set_sel l (map Z.of_nat (seq 0 (length (filtered l)))).
(* 203-207 *)
Definition clear_selection (l : lst) : lst := set_sel l [].

(** Go indexing: None is a panic. *)
Definition at_ {B} (l : list B) (i : Z) : option B := if i <? 0 then None else nth_error l (Z.to_nat i).
(* 221-226: outer None: panic, Some None: nil *)
Definition focused_item (l : lst) : option (option A) :=
  if (count l =? 0) || (count l <=? foc l) then Some None
  else match at_ (filtered l) (foc l) with None => None | Some a => Some (Some a) end.
(* 210-218, as the set of selected items with their indices; the order (map iteration) is unspecified *)
Definition selected_items (l : lst) : list (option A) :=
  map (at_ (filtered l)) (filter (fun i => i <? count l) (sel l)).

Section Render.
Variable R : Type.
Variable rend : A -> Z -> bool -> bool -> R.
(* 291-301; an index out of range gives the empty string, modelled as None *)
Definition render_item (l : lst) (i : Z) : option R :=
  if (i <? 0) || (count l <=? i) then None
  else match at_ (filtered l) i with None => None | Some a => Some (rend a i (mem i (sel l)) (i =? foc l)) end.
(* 304-324; None: make() with a negative capacity panics *)
Definition render_visible (l : lst) : option (list (option R)) :=
  if count l =? 0 then Some []
  else let e := if count l <? scroll l + height l then count l else scroll l + height l in
       let s := if count l <=? scroll l then 0 else scroll l in
       if e - s <? 0 then None
       else Some (map (fun i => render_item l (s + Z.of_nat i)) (seq 0 (Z.to_nat (e - s)))).
(* list.go:251-291, without the styles: a placeholder when nothing is drawn, the filter status at the end *)
Inductive vrow := RItem (r : option R) | RNoMatches | REmptyList | RFilterActive.
Definition view_rows (l : lst) (show : bool) : option (list vrow) :=
  match render_visible l with
  | None => None
  | Some rs =>
      let active := match query l with [] => false | _ => true end in      (* domain/model/list.go:253-256 IsFiltered *)
      Some (match rs with [] => [if active then RNoMatches else REmptyList] | _ => map RItem rs end ++ if show && active then [RFilterActive] else [])
  end.
End Render.

(* ---------- list.go (public) ---------- *)
Inductive laction := AUp | ADown | APgUp | APgDown | AStart | AEnd | AToggle | AConfirm | ASelAll | AClearSel | AClearFilter | AQuit.
(* keybindings.go:15-54; the map keeps the last binding of a key, so ctrl+c quits *)
Definition s_ctrl (c : Z) : list Z := [99; 116; 114; 108; 43; c].
Definition bindings : list (list Z * laction) :=
  [([8593], AUp); ([107], AUp); ([8595], ADown); ([106], ADown);
   ([112; 103; 117; 112], APgUp); (s_ctrl 117, APgUp); ([112; 103; 100; 111; 119; 110], APgDown); (s_ctrl 100, APgDown);
   ([104; 111; 109; 101], AStart); ([103], AStart); ([101; 110; 100], AEnd); ([71], AEnd);
   ([115; 112; 97; 99; 101], AToggle); ([101; 110; 116; 101; 114], AConfirm); (s_ctrl 97, ASelAll); ([101; 115; 99], AClearSel);
   (s_ctrl 99, AClearFilter); ([113], AQuit); (s_ctrl 99, AQuit)].
(* keybindings.go:60-75 *)
Fixpoint lookup_last (bs : list (list Z * laction)) (k : list Z) (acc : option laction) : option laction :=
  match bs with [] => acc | (s, a) :: r => lookup_last r k (if list_eqb k s then Some a else acc) end.
Definition action_of (k : keymsg) : option laction := lookup_last bindings (key_string k) None.

Record ui := U { dom : lst; show_filter : bool }.
Definition is_type (a b : keytype) : bool := match a, b with KRune, KRune => true | KBackspace, KBackspace => true | _, _ => false end.
(* list.go:206-249; the second component says whether a quit command is returned *)
Definition handle_key (u : ui) (k : keymsg) : ui * bool :=
  let d := dom u in
  let keep d' := (U d' (show_filter u), false) in
  match action_of k with
  | Some AUp => keep (move_up d) | Some ADown => keep (move_down d)
  | Some APgUp => keep (page_up d) | Some APgDown => keep (page_down d)
  | Some AStart => keep (to_start d) | Some AEnd => keep (to_end d)
  | Some AToggle => keep (toggle d) | Some ASelAll => keep (select_all d) | Some AClearSel => keep (clear_selection d)
  | Some AClearFilter => keep (set_query d [])
  | Some AConfirm => (u, false)
  | Some AQuit => (u, true)
  | None =>
      if show_filter u && is_type (ktype k) KRune then keep (set_query d [krune k])
      else if show_filter u && is_type (ktype k) KBackspace then keep (set_query d []) else (u, false)
  end.

Inductive lop := OKey (k : keymsg) | OHeight (h : Z) | OFilter (f : A -> list Z -> bool) | OShow (b : bool).
Definition lstep (u : ui) (o : lop) : ui :=
  match o with
  | OKey k => fst (handle_key u k)
  | OHeight h => U (with_height (dom u) h) (show_filter u)   (* list.go:97-101 *)
  | OFilter f => U (with_filter (dom u) f) (show_filter u)   (* list.go:117-125 *)
  | OShow b => U (dom u) b                                   (* list.go:128-132 *)
  end.
Definition lsteps (os : list lop) (u : ui) : ui := fold_left lstep os u.
(* list.go:66-84 *)
Definition new_ui (dflt : A -> list Z -> bool) (its : list A) (one : bool) : ui := U (new_list dflt its one) false.
End List_.
Arguments L {A}. Arguments U {A}. Arguments items {A}. Arguments filtered {A}. Arguments sel {A}. Arguments foc {A}.
Arguments single {A}. Arguments filt {A}. Arguments query {A}. Arguments height {A}. Arguments scroll {A}.
Arguments dom {A}. Arguments show_filter {A}.
Arguments OKey {A}. Arguments OHeight {A}. Arguments OFilter {A}. Arguments OShow {A}.
Arguments count {A}. Arguments filter_items {A}. Arguments rescroll {A}. Arguments set_foc {A}. Arguments set_sel {A}. Arguments apply_filter {A}.
Arguments reset_focus {A}. Arguments new_list {A}. Arguments with_filter {A}. Arguments with_height {A}. Arguments set_query {A}. Arguments move {A}.
Arguments move_up {A}. Arguments move_down {A}. Arguments page_up {A}. Arguments page_down {A}. Arguments to_start {A}. Arguments to_end {A}.
Arguments toggle {A}. Arguments select_all {A}. Arguments clear_selection {A}. Arguments focused_item {A}. Arguments selected_items {A}.
Arguments RItem {R}. Arguments RNoMatches {R}. Arguments REmptyList {R}. Arguments RFilterActive {R}. Arguments view_rows {A R}.
Arguments render_item {A R}. Arguments render_visible {A R}. Arguments handle_key {A}. Arguments lstep {A}. Arguments lsteps {A}. Arguments new_ui {A}.

(* strings.Contains *)
Fixpoint starts_with (p s : list Z) : bool := match p, s with [], _ => true | a :: p', b :: s' => (a =? b) && starts_with p' s' | _ :: _, [] => false end.
Fixpoint occurs_in (p s : list Z) : bool := starts_with p s || match s with [] => false | _ :: r => occurs_in p r end.
(* filter.go:39-48; [lower] is strings.ToLower, [label] the item's label *)
Definition default_filter {A} (lower : list Z -> list Z) (label : A -> list Z) (a : A) (q : list Z) : bool :=
  match q with [] => true | _ => occurs_in (lower q) (lower (label a)) end.
