(** Model of components/select and components/multiselect: {select,multiselect}.go,
    internal/domain/model/{select,multiselect,defaults}.go, internal/domain/value/selection.go,
    internal/infrastructure/keyboard.go.

    Options are Go pointers: a list of addresses, with [heap] giving the option at an address (pointer
    equality is equality of addresses). Queries are byte strings. Titles and help texts are not modelled. *)
From Verif Require Import Prelude Utf8 KeysModel.

Section Select.
Variable A : Type.
Variable heap : Z -> A.

Definition keytype_dec (a b : keytype) : {a = b} + {a <> b}. Proof. decide equality. Defined.

(* model/select.go:10-20 *)
Record sel := Sel { options : list Z; cursor : Z; chosen : Z; query : list Z; filtered : list Z; height : Z; scroll : Z; filt : A -> list Z -> bool }.
(* 29-45 *)
Definition new_sel (d : A -> list Z -> bool) (os : list Z) : sel := Sel os 0 (-1) [] os 10 0 d.
Definition nfilt (s : sel) : Z := Z.of_nat (length (filtered s)).
(* 48-78 *)
Definition with_height (s : sel) (h : Z) : sel := Sel (options s) (cursor s) (chosen s) (query s) (filtered s) (if h <? 1 then 1 else h) (scroll s) (filt s).
Definition with_filter (s : sel) (f : A -> list Z -> bool) : sel := Sel (options s) (cursor s) (chosen s) (query s) (filtered s) (height s) (scroll s) f.
(* 233-245 *)
Definition with_cursor (s : sel) (c : Z) : sel := Sel (options s) c (chosen s) (query s) (filtered s) (height s) (scroll s) (filt s).
(* 96-126 *)
Definition move_up (s : sel) : sel := with_cursor s (if 0 <? cursor s then cursor s - 1 else cursor s).
Definition move_down (s : sel) : sel := with_cursor s (if cursor s <? nfilt s - 1 then cursor s + 1 else cursor s).
Definition to_start (s : sel) : sel := with_cursor s 0.
Definition to_end (s : sel) : sel := with_cursor s (if nfilt s - 1 <? 0 then 0 else nfilt s - 1).
(** first index of an address *)
Fixpoint index_of (p : Z) (l : list Z) : option Z :=
  match l with [] => None | x :: r => if x =? p then Some 0 else match index_of p r with None => None | Some i => Some (i + 1) end end.
Definition at_ (l : list Z) (i : Z) : option Z := if (0 <=? i) && (i <? Z.of_nat (length l)) then nth_error l (Z.to_nat i) else None.
(* 129-140 *)
Definition choose (s : sel) : sel :=
  match at_ (filtered s) (cursor s) with
  | None => s
  | Some p => match index_of p (options s) with
      | None => s
      | Some i => Sel (options s) (cursor s) i (query s) (filtered s) (height s) (scroll s) (filt s) end
  end.
(* 143-171 *)
Definition set_query (s : sel) (q : list Z) : sel :=
  let f := filter (fun p => filt s (heap p) q) (options s) in
  let n := Z.of_nat (length f) in
  let c := if n <=? cursor s then n - 1 else cursor s in
  Sel (options s) (if c <? 0 then 0 else c) (chosen s) q f (height s) (scroll s) (filt s).
(* 179-194 *)
Definition selected_value (s : sel) : option A := match at_ (options s) (chosen s) with None => None | Some p => Some (heap p) end.
Definition focused_value (s : sel) : option A := match at_ (filtered s) (cursor s) with None => None | Some p => Some (heap p) end.
(* 263-291 *)
Definition adjusted (s : sel) : Z :=
  let o := if cursor s <? scroll s then cursor s else scroll s in if o + height s <=? cursor s then cursor s - height s + 1 else o.
(* 197-220: address, absolute index, focused flag of each rendered option; None: a slice index or make() panics *)
Definition render_visible (s : sel) : option (list (Z * Z * bool)) :=
  if nfilt s =? 0 then Some []
  else let st := adjusted s in
       let e := if nfilt s <? st + height s then nfilt s else st + height s in
       if (st <? 0) || (e - st <? 0) then None
       else Some (map (fun i => let j := st + Z.of_nat i in (nth (Z.to_nat j) (filtered s) 0, j, j =? cursor s)) (seq 0 (Z.to_nat (e - st)))).

(* keyboard.go:30-65 *)
Inductive saction := AUp | ADown | AStart | AEnd | ASelect | AClear | AQuit | ANone.
Definition action_of (k : keymsg) : saction :=
  match ktype k with
  | KUp => AUp | KDown => ADown | KHome => AStart | KEnd => AEnd | KEnter => ASelect | KEsc => AClear | KCtrlC => AQuit
  | KRune => if krune k =? 107 then AUp else if krune k =? 106 then ADown else if krune k =? 103 then AStart else if krune k =? 71 then AEnd else ANone
  | _ => ANone
  end.
Inductive scmd := CNone | CConfirm (v : option A) | CQuit.
Record sui := SU { dom : sel; filterable : bool }.
(* select.go:178-200; the byte-wise Backspace *)
Definition filter_input (u : sui) (k : keymsg) : sui :=
  if filterable u then
    match ktype k with
    | KRune => SU (set_query (dom u) (query (dom u) ++ enc_rune (krune k))) (filterable u)
    | KBackspace => match query (dom u) with [] => u | q => SU (set_query (dom u) (removelast q)) (filterable u) end
    | _ => u
    end
  else u.
(* select.go:144-175; the confirm command reads the selected value when it runs (here: of this state) *)
Definition handle_key (u : sui) (k : keymsg) : sui * scmd :=
  let keep d := (SU d (filterable u), CNone) in
  match action_of k with
  | AUp => keep (move_up (dom u)) | ADown => keep (move_down (dom u)) | AStart => keep (to_start (dom u)) | AEnd => keep (to_end (dom u))
  | ASelect => let d := choose (dom u) in (SU d (filterable u), CConfirm (selected_value d))
  | AClear => keep (set_query (dom u) [])
  | AQuit => (u, CQuit)
  | ANone => (filter_input u k, CNone)
  end.
Inductive sop := SKey (k : keymsg) | SHeight (h : Z) | SFilterFn (f : A -> list Z -> bool) | SFilterable (b : bool) | SOptions (os : list Z) (d : A -> list Z -> bool).
(* select.go:64-101 *)
Definition sstep (u : sui) (o : sop) : sui :=
  match o with
  | SKey k => fst (handle_key u k)
  | SHeight h => SU (with_height (dom u) h) (filterable u)
  | SFilterFn f => SU (with_filter (dom u) f) (filterable u)
  | SFilterable b => SU (dom u) b
  | SOptions os d => SU (new_sel d os) (filterable u)
  end.
Definition ssteps (os : list sop) (u : sui) : sui := fold_left sstep os u.
Definition new_sui (d : A -> list Z -> bool) : sui := SU (new_sel d []) false.

(* ---------- multiselect ---------- *)
(* value/selection.go:6-10: the map as the list of its keys *)
Record selection := Sn { idx : list Z; mn : Z; mx : Z }.
Definition cnt (s : selection) : Z := Z.of_nat (length (idx s)).
Definition mem (i : Z) (l : list Z) : bool := existsb (Z.eqb i) l.
(* 13-30 *)
Definition new_selection (mi ma : Z) : selection :=
  let mi := if mi <? 0 then 0 else mi in let ma := if ma <? 0 then 0 else ma in
  Sn [] (if (0 <? ma) && (ma <? mi) then ma else mi) ma.
(* 149-156 *)
Definition can_select (s : selection) : bool := (mx s =? 0) || (cnt s <? mx s).
Definition can_confirm (s : selection) : bool := mn s <=? cnt s.
(* 39-46: adding a present key keeps the map *)
Definition add_one (s : selection) (i : Z) : selection :=
  if (0 <=? i) && can_select s then Sn (if mem i (idx s) then idx s else i :: idx s) (mn s) (mx s) else s.
(* 33-53 *)
Definition with_selected (s : selection) (l : list Z) : selection := fold_left add_one l s.
(* 56-78 *)
Definition toggle_idx (s : selection) (i : Z) : selection :=
  if i <? 0 then s
  else if mem i (idx s) then Sn (filter (fun j => negb (j =? i)) (idx s)) (mn s) (mx s)
  else if can_select s then Sn (i :: idx s) (mn s) (mx s) else s.
(* 107-113 *)
Definition clear_idx (s : selection) : selection := Sn [] (mn s) (mx s).
(** 126-146: the indices in increasing order (map order, then an exchange sort) *)
Fixpoint ins (x : Z) (l : list Z) : list Z := match l with [] => [x] | y :: r => if y <? x then y :: ins x r else x :: y :: r end.
Definition indices (s : selection) : list Z := fold_right ins [] (idx s).

(* model/multiselect.go:10-20; [base] is the part shared with Select *)
Record msel := M { base : sel; picked : selection }.
Definition on_base (m : msel) (f : sel -> sel) : msel := M (f (base m)) (picked m).
(* 144-155 *)
Definition toggle (m : msel) : msel :=
  match at_ (filtered (base m)) (cursor (base m)) with
  | None => m
  | Some p => match index_of p (options (base m)) with None => m | Some i => M (base m) (toggle_idx (picked m) i) end
  end.
(* 158-179 *)
Definition sel_step (s : selection) (i : Z) : selection := if negb (mem i (idx s)) && can_select s then toggle_idx s i else s.
Fixpoint somes {B} (l : list (option B)) : list B := match l with [] => [] | Some x :: r => x :: somes r | None :: r => somes r end.
Definition select_all (m : msel) : msel :=
  M (base m) (fold_left sel_step (somes (map (fun p => index_of p (options (base m))) (filtered (base m)))) (picked m)).
(* 182-184 *)
Definition select_none (m : msel) : msel := M (base m) (clear_idx (picked m)).
(* 223-232 *)
Definition selected_values (m : msel) : list A :=
  map heap (somes (map (fun i => at_ (options (base m)) i) (indices (picked m)))).
(* 365-383 *)
Definition with_constraints (m : msel) (mi ma : Z) : msel := M (base m) (with_selected (new_selection mi ma) (indices (picked m))).

(* keyboard.go (multiselect) 33-71 *)
Inductive maction := BMove (a : saction) | BToggle | BAll | BNone_ | BConfirm | BOther.
Definition maction_of (k : keymsg) : maction :=
  match ktype k with
  | KUp => BMove AUp | KDown => BMove ADown | KHome => BMove AStart | KEnd => BMove AEnd | KSpace => BToggle | KEnter => BConfirm
  | KEsc => BMove AClear | KCtrlC => BMove AQuit
  | KRune => if krune k =? 107 then BMove AUp else if krune k =? 106 then BMove ADown else if krune k =? 103 then BMove AStart
             else if krune k =? 71 then BMove AEnd else if krune k =? 97 then BAll else if krune k =? 110 then BNone_ else BOther
  | _ => BOther
  end.
Inductive mcmd := MNone_ | MConfirm (vs : list A) | MQuit.
Record mui := MU { mdom : msel; mfilterable : bool; umin : Z; umax : Z }.
Definition put (u : mui) (d : msel) : mui := MU d (mfilterable u) (umin u) (umax u).
(* multiselect.go:252-280 *)
Definition mfilter_input (u : mui) (k : keymsg) : mui :=
  if mfilterable u then
    match ktype k with
    | KRune => put u (on_base (mdom u) (fun s => set_query s (query s ++ enc_rune (krune k))))
    | KBackspace => match query (base (mdom u)) with [] => u | q => put u (on_base (mdom u) (fun s => set_query s (removelast q))) end
    | _ => u
    end
  else u.
(* multiselect.go:207-249 *)
Definition mhandle_key (u : mui) (k : keymsg) : mui * mcmd :=
  let keep d := (put u d, MNone_) in
  match maction_of k with
  | BMove AUp => keep (on_base (mdom u) move_up) | BMove ADown => keep (on_base (mdom u) move_down)
  | BMove AStart => keep (on_base (mdom u) to_start) | BMove AEnd => keep (on_base (mdom u) to_end)
  | BMove AClear => keep (on_base (mdom u) (fun s => set_query s []))
  | BMove AQuit => (u, MQuit)
  | BToggle => keep (toggle (mdom u)) | BAll => keep (select_all (mdom u)) | BNone_ => keep (select_none (mdom u))
  | BConfirm => if can_confirm (picked (mdom u)) then (u, MConfirm (selected_values (mdom u))) else (u, MNone_)
  | _ => (mfilter_input u k, MNone_)
  end.
Inductive mop := MKey (k : keymsg) | MHeight (h : Z) | MFilterFn (f : A -> list Z -> bool) | MFilterable (b : bool)
  | MSelected (l : list Z) | MMin (n : Z) | MMax (n : Z) | MOptions (os : list Z) (d : A -> list Z -> bool).
(* multiselect.go:75-174 *)
Definition mstep (u : mui) (o : mop) : mui :=
  match o with
  | MKey k => fst (mhandle_key u k)
  | MHeight h => put u (on_base (mdom u) (fun s => with_height s h))
  | MFilterFn f => put u (on_base (mdom u) (fun s => with_filter s f))
  | MFilterable b => MU (mdom u) b (umin u) (umax u)
  | MSelected l => put u (M (base (mdom u)) (with_selected (picked (mdom u)) l))
  | MMin n => let n := if n <? 0 then 0 else n in MU (with_constraints (mdom u) n (umax u)) (mfilterable u) n (umax u)
  | MMax n => let n := if n <? 0 then 0 else n in MU (with_constraints (mdom u) (umin u) n) (mfilterable u) (umin u) n
  | MOptions os d => MU (M (new_sel d os) (new_selection (umin u) (umax u))) (mfilterable u) (umin u) (umax u)
  end.
Definition msteps (os : list mop) (u : mui) : mui := fold_left mstep os u.
(* multiselect.go:63-72 *)
Definition new_mui (d : A -> list Z -> bool) : mui := MU (M (new_sel d []) (new_selection 0 0)) false 0 0.
End Select.
Arguments Sel {A}. Arguments options {A}. Arguments cursor {A}. Arguments chosen {A}. Arguments query {A}. Arguments filtered {A}. Arguments height {A}. Arguments scroll {A}. Arguments filt {A}.
Arguments new_sel {A}. Arguments nfilt {A}. Arguments with_height {A}. Arguments with_filter {A}. Arguments with_cursor {A}. Arguments move_up {A}. Arguments move_down {A}.
Arguments to_start {A}. Arguments to_end {A}. Arguments choose {A}. Arguments set_query {A}. Arguments selected_value {A}. Arguments focused_value {A}. Arguments adjusted {A}. Arguments render_visible {A}.
Arguments CNone {A}. Arguments CConfirm {A}. Arguments CQuit {A}. Arguments SU {A}. Arguments dom {A}. Arguments filterable {A}. Arguments filter_input {A}. Arguments handle_key {A}.
Arguments SKey {A}. Arguments SHeight {A}. Arguments SFilterFn {A}. Arguments SFilterable {A}. Arguments SOptions {A}. Arguments sstep {A}. Arguments ssteps {A}. Arguments new_sui {A}.
Arguments M {A}. Arguments base {A}. Arguments picked {A}. Arguments on_base {A}. Arguments toggle {A}. Arguments select_all {A}. Arguments select_none {A}. Arguments selected_values {A}. Arguments with_constraints {A}.
Arguments MNone_ {A}. Arguments MConfirm {A}. Arguments MQuit {A}. Arguments MU {A}. Arguments mdom {A}. Arguments mfilterable {A}. Arguments umin {A}. Arguments umax {A}. Arguments put {A}.
Arguments mfilter_input {A}. Arguments mhandle_key {A}. Arguments MKey {A}. Arguments MHeight {A}. Arguments MFilterFn {A}. Arguments MFilterable {A}. Arguments MSelected {A}. Arguments MMin {A}. Arguments MMax {A}. Arguments MOptions {A}.
Arguments mstep {A}. Arguments msteps {A}. Arguments new_mui {A}.

(* ---------- views ---------- *)
(* select.go:113-117: WithDefault returns the component unchanged *)
Definition with_default {A} (u : sui A) (v : A) : sui A := u.
(* multiselect/internal/domain/model/multiselect.go:249-283: address, index, focused flag and selected flag of each rendered option *)
Definition mrender_visible {A} (m : msel A) : option (list (Z * Z * bool * bool)) :=
  match render_visible (base m) with
  | None => None
  | Some rs => Some (map (fun r => (r, match index_of (fst (fst r)) (options (base m)) with Some i => mem i (idx (picked m)) | None => false end)) rs)
  end.
(** The lines of a view (the text split at the newlines the view itself writes). *)
Inductive vline (R : Type) := VTitle (t : list Z) | VTitleCount (t : list Z) (n total : Z) | VBlank | VOpt (r : R) | VNoMatches | VNoOptions | VFilter (q : list Z) | VTypeToFilter | VHelp.
Arguments VTitle {R}. Arguments VTitleCount {R}. Arguments VBlank {R}. Arguments VOpt {R}. Arguments VNoMatches {R}. Arguments VNoOptions {R}. Arguments VFilter {R}. Arguments VTypeToFilter {R}. Arguments VHelp {R}.
(* select.go:224-249 = multiselect.go:310-334 *)
Definition option_lines {R} (rs : list R) (q : list Z) : list (vline R) :=
  match rs with [] => [match q with [] => VNoOptions | _ => VNoMatches end] | _ => map VOpt rs end.
(* select.go:251-262 = multiselect.go:337-347 *)
Definition filter_lines {R} (filterable : bool) (q : list Z) : list (vline R) :=
  if filterable then [VBlank; match q with [] => VTypeToFilter | _ => VFilter q end] else [].
(* select.go:203-221 *)
Definition sview {A} (ttl : list Z) (u : sui A) : option (list (vline (Z * Z * bool))) :=
  match render_visible (dom u) with
  | None => None
  | Some rs => Some ((match ttl with [] => [] | _ => [VTitle ttl; VBlank] end) ++ option_lines rs (query (dom u)) ++ filter_lines (filterable u) (query (dom u)))
  end.
(* multiselect.go:283-308, 349-354 *)
Definition mview {A} (ttl : list Z) (u : mui A) : option (list (vline (Z * Z * bool * bool))) :=
  match mrender_visible (mdom u) with
  | None => None
  | Some rs =>
      let total := Z.of_nat (length (options (base (mdom u)))) in
      Some ((match ttl with [] => [] | _ => [if 0 <? total then VTitleCount ttl (cnt (picked (mdom u))) total else VTitle ttl; VBlank] end)
            ++ option_lines rs (query (base (mdom u))) ++ filter_lines (mfilterable u) (query (base (mdom u))) ++ [VBlank; VHelp])
  end.
(** An option's own texts (value/option.go) and the default renderers (model/defaults.go in both packages). *)
Record optext := OT { ot_label : list Z; ot_desc : list Z; ot_disabled : bool }.
Definition dis_text : list Z := [32; 40; 100; 105; 115; 97; 98; 108; 101; 100; 41].
Definition sdefault_render (o : optext) (focused : bool) : list Z :=
  (if focused then [62; 32] else [32; 32]) ++ ot_label o ++ (if ot_disabled o then dis_text else []) ++ match ot_desc o with [] => [] | d => [32; 45; 32] ++ d end.
Definition mdefault_render (o : optext) (focused selected : bool) : list Z :=
  (if focused then [62; 32] else [32; 32]) ++ (if selected then [91; 120; 93; 32] else [91; 32; 93; 32]) ++ ot_label o ++
  match ot_desc o with [] => [] | d => [32; 45; 32] ++ d end ++ (if ot_disabled o then dis_text else []).
