(** Model of one ThemeManager used from several goroutines: style/internal/application/theme_manager.go:34-82, whose methods hold its
    RWMutex; the bodies are taken apart into single accesses to the field [current] (a pointer; its theme is never changed). *)
From Verif Require Import Prelude SyModel MxModel.

Inductive tpos := TStart | TLoaded (t : theme) | TStored (t : theme).
(* theme_manager.go:35 RLock, 47 and 73 Lock; SetTheme nil is Current (43-45), SetPreset (59-67) and Reset (80-82) are SetTheme *)
Definition t_lock (c : tcall) : bool := match c with Current | SetTheme None => false | _ => true end.
Definition t_first (c : tcall) : tpos := TStart.
Definition stored (c : tcall) (cur : theme) : theme :=
  match c with SetTheme (Some t) => t | SetPreset n => match preset_by_name n with Some t => t | None => cur end | MergeTheme o => merge cur o | ResetTheme => default_theme | _ => cur end.
Definition returns (c : tcall) (previous : theme) : tres :=
  match c with SetTheme _ | Current => RTheme previous | SetPreset n => RBool (match preset_by_name n with Some _ => true | None => false end) | MergeTheme _ | ResetTheme => RNone end.
Definition t_next (c : tcall) (p : tpos) (cur : theme) : (tpos * theme) + tres :=
  match p with
  | TStart => inl (TLoaded cur, cur)                                                      (* 37, 50, 76: read current *)
  | TLoaded t => if t_lock c then inl (TStored t, stored c t) else inr (returns c t)      (* 51, 76: write current *)
  | TStored t => inr (returns c t)                                                        (* 52 *)
  end.
(* theme_manager.go:60-63: an unknown preset is answered without the lock; no other call can see it *)
Definition t_steps (c : tcall) : list (item tcall Empty_set) := match c with SetPreset n => match preset_by_name n with Some _ => [Do c] | None => [] end | _ => [Do c] end.
Definition t_exec (sched : list nat) (t0 : theme) (ps : list (list tcall)) : sys theme tpos tcall tres unit Empty_set :=
  exec t_lock t_first t_next (fun (o : Empty_set) (_ : unit) => match o with end) sched (begin t0 tt (map (flat_map t_steps) ps)).
