(** Model of components/table: table.go, internal/domain/model/{table,column}.go,
    internal/domain/service/sort.go, internal/domain/value/sort_direction.go, internal/infrastructure/keybindings.go. *)
From Verif Require Import Prelude KeysModel.

(** Cell values (Go interface{}). Strings are byte lists. Floats are represented by their rank in the
    IEEE order of non-NaN values, NaN by None; other dynamic types only reach Compare through fmt. *)
Inductive cell := CNil | CStr (s : list Z) | CInt (z : Z) | CInt64 (z : Z) | CFloat (f : option Z) | CBool (b : bool) | COther (id : Z).
(** A row maps column keys to values; an absent key reads as nil. *)
Definition row := list Z -> cell.

Section Table.
(** fmt.Sprintf("%v", x) *)
Variable fmt : cell -> list Z.
(** sort.SliceStable with a less function on elements *)
Variable sorter : (row -> row -> bool) -> list row -> list row.

(* sort.go:101-131: comparisons return -1, 0, 1 *)
Fixpoint cmp_str (a b : list Z) : Z :=
  match a, b with
  | [], [] => 0 | [], _ => -1 | _, [] => 1
  | x :: a', y :: b' => if x <? y then -1 else if y <? x then 1 else cmp_str a' b'
  end.
Definition cmp_int (a b : Z) : Z := if a <? b then -1 else if b <? a then 1 else 0.
(* sort.go:134-142: every comparison with NaN is false *)
Definition cmp_float (a b : option Z) : Z := match a, b with Some x, Some y => cmp_int x y | _, _ => 0 end.
(* sort.go:145-153 *)
Definition cmp_bool (a b : bool) : Z := if Bool.eqb a b then 0 else if negb a && b then -1 else 1.
(* sort.go:56-98 *)
Definition compare_ (a b : cell) : Z :=
  match a, b with
  | CNil, CNil => 0 | CNil, _ => -1 | _, CNil => 1
  | CStr x, CStr y => cmp_str x y
  | CInt x, CInt y => cmp_int x y
  | CInt64 x, CInt64 y => cmp_int x y
  | CFloat x, CFloat y => cmp_float x y
  | CBool x, CBool y => cmp_bool x y
  | _, _ => cmp_str (fmt a) (fmt b)
  end.

(* sort_direction.go:6-13, 46-55 *)
Inductive dir := DNone | DAsc | DDesc.
Definition toggle_dir (d : dir) : dir := match d with DAsc => DDesc | _ => DAsc end.
(* sort.go:34-44 *)
Definition less (key : list Z) (d : dir) (a b : row) : bool :=
  match d with DAsc => compare_ (a key) (b key) <? 0 | _ => 0 <? compare_ (a key) (b key) end.
(* sort.go:24-47 *)
Definition sort_rows (rows : list row) (key : list Z) (d : dir) : list row :=
  match d, rows with DNone, _ => rows | _, [] => rows | _, _ => sorter (less key d) rows end.

(* column.go:10-17 *)
Inductive align := ALeft | ACenter | ARight.
Record column := Col { ckey : list Z; title : list Z; cwidth : Z; calign : align; sortable : bool; renderer : option (cell -> list Z) }.

(* domain/model/table.go:12-22 *)
Record table := T { columns : list column; rows : list row; sorted : option (list row); skey : list Z; sdir : dir;
                    tsel : Z; tscroll : Z; theight : Z; header : bool }.
Definition effective (t : table) : list row := match sorted t with Some r => r | None => rows t end.
(* table.go (model) 25-37 *)
Definition new_table (cols : list column) : table := T cols [] None [] DNone 0 0 10 true.
(* 55-67 *)
Definition with_rows (t : table) (r : list row) : table := T (columns t) r None [] DNone 0 0 (theight t) (header t).
(* 70-97 *)
Definition with_height (t : table) (h : Z) : table := T (columns t) (rows t) (sorted t) (skey t) (sdir t) (tsel t) (tscroll t) h (header t).
Definition with_header (t : table) (b : bool) : table := T (columns t) (rows t) (sorted t) (skey t) (sdir t) (tsel t) (tscroll t) (theight t) b.
(* 101-128 *)
Definition sort_by (t : table) (key : list Z) (d : dir) (r : list row) : table := T (columns t) (rows t) (Some r) key d 0 0 (theight t) (header t).
Definition clear_sort (t : table) : table := T (columns t) (rows t) None [] DNone (tsel t) (tscroll t) (theight t) (header t).
Definition set_pos (t : table) (i o : Z) : table := T (columns t) (rows t) (sorted t) (skey t) (sdir t) i o (theight t) (header t).
Definition nrows (t : table) : Z := Z.of_nat (length (effective t)).
(** rows that fit: height less one for the header (168-171, 211-214, 269-272) *)
Definition vis (t : table) : Z := if header t then theight t - 1 else theight t.
(* 131-155 *)
Definition move_up (t : table) : table :=
  if tsel t <=? 0 then t else let i := tsel t - 1 in set_pos t i (if i <? tscroll t then i else tscroll t).
(* 158-187 *)
Definition move_down (t : table) : table :=
  if nrows t - 1 <=? tsel t then t
  else let i := tsel t + 1 in set_pos t i (if tscroll t + vis t <=? i then i - vis t + 1 else tscroll t).
(* 190-232 *)
Definition to_start (t : table) : table := set_pos t 0 0.
Definition to_end (t : table) : table :=
  let m := if nrows t - 1 <? 0 then 0 else nrows t - 1 in
  let o := if m - vis t + 1 <? 0 then 0 else m - vis t + 1 in set_pos t m o.
(* 243-249 *)
Definition selected_row (t : table) : option row :=
  if (0 <=? tsel t) && (tsel t <? nrows t) then nth_error (effective t) (Z.to_nat (tsel t)) else None.
(* 267-285; None: the slice panics *)
Definition visible_rows (t : table) : option (list row) :=
  let s := tscroll t in let e := s + vis t in
  if nrows t <=? s then Some []
  else let e := if nrows t <? e then nrows t else e in
       if (0 <=? s) && (s <=? e) then Some (firstn (Z.to_nat (e - s)) (skipn (Z.to_nat s) (effective t))) else None.

(* ---------- table.go (public) ---------- *)
(* 187-201 *)
Fixpoint page_up_loop (n : nat) (t : table) : table :=
  match n with O => t | S m => if 0 <? tsel t then page_up_loop m (move_up t) else t end.
Definition page_up (t : table) : table := page_up_loop (Z.to_nat (vis t)) t.
(* 204-219 *)
Fixpoint page_down_loop (n : nat) (mx : Z) (t : table) : table :=
  match n with O => t | S m => if tsel t <? mx then page_down_loop m mx (move_down t) else t end.
Definition page_down (t : table) : table := page_down_loop (Z.to_nat (vis t)) (Z.of_nat (length (rows t)) - 1) t.
(* 363-392 *)
Definition sort_by_column (t : table) (key : list Z) : table :=
  match find (fun c => list_eqb (ckey c) key) (columns t) with
  | None => t
  | Some c => if sortable c
      then let d := match sdir t with DNone => DAsc | d => if list_eqb (skey t) key then toggle_dir d else DAsc end in
           sort_by t key d (sort_rows (rows t) key d)
      else t
  end.

(* keybindings.go:19-30, 73-81 *)
Definition key_in (k : keymsg) (names : list (list Z)) : bool := existsb (list_eqb (key_string k)) names.
(* table.go:155-184 *)
Definition on_key (t : table) (k : keymsg) : table :=
  if key_in k [[8593]; [107]] then move_up t
  else if key_in k [[8595]; [106]] then move_down t
  else if key_in k [[104; 111; 109; 101]; [103]] then to_start t
  else if key_in k [[101; 110; 100]; [71]] then to_end t
  else if key_in k [[112; 103; 117; 112]] then page_up t
  else if key_in k [[112; 103; 100; 111; 119; 110]] then page_down t
  else if key_in k [[99]] then clear_sort t
  else t.
Inductive top := TKey (k : keymsg) | THeight (h : Z) | THeader (b : bool) | TRows (r : list row) | TSort (key : list Z) | TClear.
Definition tstep (t : table) (o : top) : table :=
  match o with
  | TKey k => on_key t k | THeight h => with_height t h | THeader b => with_header t b | TRows r => with_rows t r
  | TSort k => sort_by_column t k | TClear => clear_sort t
  end.
Definition tsteps (os : list top) (t : table) : table := fold_left tstep os t.

(* ---------- view ---------- *)
Definition spaces (n : Z) : list Z := repeat 32 (Z.to_nat n).
(* table.go:311-339, on bytes; None: a slice with a negative bound panics *)
Definition format_cell (text : list Z) (w : Z) (a : align) : option (list Z) :=
  let cut := if w <? Z.of_nat (length text)
             then if 3 <? w then Some (firstn (Z.to_nat (w - 3)) text ++ [46; 46; 46])
                  else if w <? 0 then None else Some (firstn (Z.to_nat w) text)
             else Some text in
  match cut with
  | None => None
  | Some text =>
      let p := w - Z.of_nat (length text) in
      if p <=? 0 then Some text
      else Some (match a with
                 | ALeft => text ++ spaces p
                 | ARight => spaces p ++ text
                 | ACenter => let l := Z.quot p 2 in spaces l ++ text ++ spaces (p - l)
                 end)
  end.
(** Lines are byte lists, except that the box characters stand for themselves as one element. *)
Fixpoint join_cells (cs : list (list Z)) (sep : Z) : list Z :=
  match cs with [] => [] | [c] => c | c :: r => c ++ sep :: join_cells r sep end.
Fixpoint seq_opt {B} (l : list (option B)) : option (list B) :=
  match l with [] => Some [] | None :: _ => None | Some x :: r => match seq_opt r with None => None | Some ys => Some (x :: ys) end end.
(* table.go:239-258 *)
Definition header_title (t : table) (c : column) : list Z :=
  match sdir t with
  | DNone => title c
  | d => if list_eqb (skey t) (ckey c) then title c ++ match d with DAsc => [32; 226; 150; 178] | _ => [32; 226; 150; 188] end else title c
  end.
Definition header_line (t : table) : option (list Z) :=
  match seq_opt (map (fun c => format_cell (header_title t c) (cwidth c) (calign c)) (columns t)) with
  | None => None | Some cs => Some (join_cells cs 9474) end.
(* 261-267; strings.Repeat panics on a negative count *)
Definition rule_line (t : table) : option (list Z) :=
  match seq_opt (map (fun c => if cwidth c <? 0 then None else Some (repeat 9472 (Z.to_nat (cwidth c)))) (columns t)) with
  | None => None | Some cs => Some (join_cells cs 9532) end.
(* 278-304 *)
Definition mark (c : list Z) : list Z := match c with [] => [] | _ :: r => 62 :: r end.
Definition cell_text (c : column) (r : row) : list Z := match renderer c with Some f => f (r (ckey c)) | None => fmt (r (ckey c)) end.
Definition row_line (cols : list column) (r : row) (is_sel : bool) : option (list Z) :=
  match seq_opt (map (fun c => format_cell (cell_text c r) (cwidth c) (calign c)) cols) with
  | None => None
  | Some cs => Some (join_cells (match cs with c :: rest => (if is_sel then mark c else c) :: rest | [] => [] end) 9474)
  end.
(* 224-308 *)
Definition view (t : table) : option (list (list Z)) :=
  match visible_rows t with
  | None => None
  | Some rs =>
      let body := seq_opt (map (fun ir => row_line (columns t) (snd ir) (tscroll t + Z.of_nat (fst ir) =? tsel t)) (combine (seq 0 (length rs)) rs)) in
      if header t
      then match header_line t, rule_line t, body with Some h, Some r, Some b => Some (h :: r :: b) | _, _, _ => None end
      else body
  end.
End Table.
