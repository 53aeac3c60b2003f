(** Model of clipboard/: clipboard.go, internal/application/clipboard_manager.go, internal/domain/service/{clipboard_service,
    clipboard_history}.go, internal/domain/model/{clipboard_content,history_entry}.go, internal/domain/value/mime_type.go,
    internal/infrastructure/osc52/osc52_provider.go, internal/infrastructure/native/clipboard_{linux,darwin}.go,
    internal/infrastructure/platform/detector.go. Strings and contents are lists of bytes.
    Left out: images (WriteImage and ReadImage always fail, clipboard_manager.go:127-140), the Windows provider (CwModel), the global clipboard
    (the functions at clipboard.go:293-352 are the methods of one instance). *)
From Verif Require Import Prelude.

(* ---------- base64 (encoding/base64.StdEncoding) and OSC 52 ---------- *)
Definition b64char (v : Z) : Z := if v <? 26 then 65 + v else if v <? 52 then 71 + v else if v <? 62 then v - 4 else if v =? 62 then 43 else 47.
Fixpoint base64 (d : list Z) : list Z :=
  match d with
  | [] => []
  | [a] => [b64char (a / 4); b64char (a mod 4 * 16); 61; 61]
  | [a; b] => [b64char (a / 4); b64char (a mod 4 * 16 + b / 16); b64char (b mod 16 * 4); 61]
  | a :: b :: c :: r => [b64char (a / 4); b64char (a mod 4 * 16 + b / 16); b64char (b mod 16 * 4 + c / 64); b64char (c mod 64)] ++ base64 r
  end.
(* osc52_provider.go:47-51 *)
Definition osc52 (d : list Z) : list Z := [27; 93; 53; 50; 59; 99; 59] ++ base64 d ++ [27; 92].

(* osc52_provider.go:54-71: the writing goroutine, the timer and the waiting caller. The channel holds one result *)
Record wstate := W { pc : nat; chan : option bool; fired : bool; result : option bool; sent : bool; flushed : bool }.
Definition w0 : wstate := W 0 None false None false false.
Inductive wstep : wstate -> wstate -> Prop :=
| WWrite : forall c f r s y, wstep (W 0 c f r s y) (W 1 c f r true y)                                    (* WriteString succeeds *)
| WWriteFail : forall f r s y (part : bool), wstep (W 0 None f r s y) (W 2 (Some false) f r (s || part) y)  (* it fails, possibly after writing a part *)
| WSync : forall f r s y, wstep (W 1 None f r s y) (W 2 (Some true) f r s true)
| WSyncFail : forall f r s y, wstep (W 1 None f r s y) (W 2 (Some false) f r s y)
| WTimer : forall p c r s y, wstep (W p c false r s y) (W p c true r s y)
| WDone : forall p v f s y, wstep (W p (Some v) f None s y) (W p None f (Some v) s y)
| WTimeout : forall p c s y, wstep (W p c true None s y) (W p c true (Some false) s y).
Inductive wreach : wstate -> Prop := WInit : wreach w0 | WNext a b : wreach a -> wstep a b -> wreach b.

(* ---------- MIME types and contents ---------- *)
(* mime_type.go:9-35 *)
Inductive mime := Plain | Html | Rtf | OtherMime (s : list Z).
(* mime_type.go:55-62 *)
Definition is_text (m : mime) : bool := match m with Plain | Html | Rtf => true | _ => false end.

(* ---------- history ---------- *)
(* history_entry.go:14-20; the size is the length of the content *)
Record entry := E { eid : Z; econtent : list Z; emime : mime; etime : Z }.
(* clipboard_history.go:16-21; maxAge in clock units *)
Record history := H { entries : list entry; maxSize : Z; maxAge : Z }.
(* clipboard_history.go:26-39 *)
Definition new_history (n age : Z) : history := H [] (Z.max 0 n) (Z.max 0 age).
(* clipboard_history.go:44-64; the new entry's id (a fresh UUID) and time are given. An empty MIME type is left out *)
Definition add (h : history) (id now : Z) (c : list Z) (m : mime) : option history :=
  match c with [] => None | _ =>
    let es := entries h ++ [E id c m now] in
    Some (H (if (0 <? maxSize h) && (maxSize h <? Z.of_nat (length es)) then tl es else es) (maxSize h) (maxAge h))
  end.
(* history_entry.go:108-113 *)
Definition expired (age now : Z) (e : entry) : bool := if age <=? 0 then false else age <? now - etime e.
(* clipboard_history.go:158-179 *)
Definition remove_expired (h : history) (now : Z) : history * Z :=
  if maxAge h <=? 0 then (h, 0)
  else (H (filter (fun e => negb (expired (maxAge h) now e)) (entries h)) (maxSize h) (maxAge h),
        Z.of_nat (length (filter (expired (maxAge h) now) (entries h)))).
(* clipboard_history.go:148-153 *)
Definition clear (h : history) : history := H [] (maxSize h) (maxAge h).
(* clipboard_history.go:221-236 *)
Definition set_max_size (h : history) (n : Z) : history :=
  let n := Z.max 0 n in let es := entries h in
  H (if (0 <? n) && (n <? Z.of_nat (length es)) then skipn (length es - Z.to_nat n) es else es) n (maxAge h).
(* clipboard_history.go:240-249 *)
Definition set_max_age (h : history) (age : Z) : history := H (entries h) (maxSize h) (Z.max 0 age).
(* clipboard_history.go:68-79 *)
Definition get (h : history) (id : Z) : option entry := find (fun e => eid e =? id) (entries h).
(* clipboard_history.go:190-199 *)
Definition total_size (h : history) : Z := fold_left (fun a e => a + Z.of_nat (length (econtent e))) (entries h) 0.
(* sort.Slice by falling time (clipboard_history.go:91-93): up to twelve elements it is insertion sort, beyond that any sorted permutation *)
Fixpoint insert (e : entry) (l : list entry) : list entry := match l with [] => [e] | x :: r => if etime x <? etime e then e :: l else x :: insert e r end.
Definition isort (l : list entry) : list entry := fold_left (fun a e => insert e a) l [].

(* ---------- providers ---------- *)
(* provider.go; what a provider does at a moment: whether it is available, what Read gives, whether Write succeeds *)
Record provider := P { available : bool; reads : option (list Z * mime); writes : bool }.
(* clipboard_service.go:85-92: index of the first available provider *)
Fixpoint first_available (ps : list provider) (i : nat) : option (nat * provider) :=
  match ps with [] => None | p :: r => if available p then Some (i, p) else first_available r (S i) end.
(* the calls made on providers *)
Inductive pcall := PRead (i : nat) | PWrite (i : nat) (data : list Z) (m : mime).
(* clipboard_content.go:32-42, clipboard_service.go:37-48, 61-68 *)
Definition write_text (ps : list provider) (t : list Z) : bool * list pcall :=
  match t with [] => (false, []) | _ => match first_available ps 0 with None => (false, []) | Some (i, p) => (writes p, [PWrite i t Plain]) end end.
(* clipboard_service.go:27-34, 51-58, clipboard_content.go:76-82 *)
Definition read_text (ps : list provider) : option (list Z) * list pcall :=
  match first_available ps 0 with
  | None => (None, [])
  | Some (i, p) => (match reads p with Some (d, m) => if is_text m then Some d else None | None => None end, [PRead i])
  end.
(* clipboard_manager.go:101-122 and clipboard.go:264-290 *)
Inductive kind := Osc52 | Native | Custom (n : nat).
Definition chain (ssh tty : bool) : list kind := if ssh && tty then [Osc52; Native] else [Native; Osc52].
Definition build (custom : list nat) (osc native : bool) : list kind := map Custom custom ++ (if osc then [Osc52] else []) ++ (if native then [Native] else []).
(* clipboard_linux.go:22-50: which tools exist *)
Inductive tool := WlClipboard | Xclip | Xsel.
Definition native_tool (wl_copy wl_paste xclip xsel : bool) : option tool :=
  if wl_copy && wl_paste then Some WlClipboard else if xclip then Some Xclip else if xsel then Some Xsel else None.

(* ---------- the clipboard ---------- *)
(* clipboard_manager.go:18-24: history None when disabled *)
Record clip := C { hist : option history }.
(* a call, with what the environment does at that moment: the providers, the clock and a fresh id *)
Record env := Env { provs : list provider; now : Z; fresh : Z }.
Inductive call := Write (t : list Z) | WriteHTML (t : list Z) | WriteRTF (t : list Z) | EnableHistory (n age : Z) | DisableHistory | ClearHistory | RemoveExpired | Restore (id : Z).
(* clipboard_manager.go:71-83, 160-173, 193-206 *)
Definition write_as (m : mime) (e : env) (c : clip) (t : list Z) : clip * bool * list pcall :=
  let '(ok, calls) := write_text (provs e) t in
  (if ok then match hist c with Some h => C (match add h (fresh e) (now e) t m with Some h' => Some h' | None => Some h end) | None => c end else c, ok, calls).
(* clipboard.go:615-643 *)
Definition restore (e : env) (c : clip) (id : Z) : clip * bool * list pcall :=
  match hist c with
  | None => (c, false, [])
  | Some h => match get h id with None => (c, false, []) | Some en => write_as (if is_text (emime en) then emime en else Plain) e c (econtent en) end
  end.
Definition exec (e : env) (c : clip) (k : call) : clip * bool * list pcall :=
  match k with
  | Write t => write_as Plain e c t
  | WriteHTML t => write_as Html e c t
  | WriteRTF t => write_as Rtf e c t
  | EnableHistory n age => (C (Some (new_history n age)), true, [])           (* clipboard_manager.go:247-250 *)
  | DisableHistory => (C None, true, [])                                       (* clipboard_manager.go:253-256 *)
  | ClearHistory => (C (option_map clear (hist c)), true, [])                  (* clipboard_manager.go:292-296 *)
  | RemoveExpired => (C (option_map (fun h => fst (remove_expired h (now e))) (hist c)), true, [])
  | Restore id => restore e c id
  end.

(* ---------- the builder ---------- *)
(* clipboard.go:223-237; the custom providers are numbered; the timeout in clock units (5 s, here 5000) *)
Record builder := Bd { customs : list nat; osc52Enabled : bool; osc52Timeout : Z; nativeEnabled : bool }.
Definition new_builder : builder := Bd [] true 5000 true.
(* clipboard.go:240-261 *)
Inductive bop := WithOSC52 (b : bool) | WithOSC52Timeout (t : Z) | WithNative (b : bool) | WithProvider (n : nat).
Definition bstep (b : builder) (o : bop) : builder :=
  match o with
  | WithOSC52 v => Bd (customs b) v (osc52Timeout b) (nativeEnabled b)
  | WithOSC52Timeout t => Bd (customs b) (osc52Enabled b) t (nativeEnabled b)
  | WithNative v => Bd (customs b) (osc52Enabled b) (osc52Timeout b) v
  | WithProvider n => Bd (customs b ++ [n]) (osc52Enabled b) (osc52Timeout b) (nativeEnabled b)
  end.
(* clipboard.go:264-290, clipboard_service.go:16-24: the providers and the timeout of OSC 52; an error for no provider *)
Definition build_clip (b : builder) : option (list kind * Z) :=
  match build (customs b) (osc52Enabled b) (nativeEnabled b) with [] => None | ps => Some (ps, osc52Timeout b) end.

(* ---------- the environment ---------- *)
(* detector.go:47-62: the variables SSH_TTY, SSH_CLIENT and SSH_CONNECTION *)
Definition is_ssh (v1 v2 v3 : list Z) : bool := if negb (list_eqb v1 []) then true else if negb (list_eqb v2 []) then true else if negb (list_eqb v3 []) then true else false.
(* clipboard_manager.go:27-45, detector.go:89-92: New *)
Definition new_clip (v1 v2 v3 : list Z) (tty : bool) : list kind := chain (is_ssh v1 v2 v3) tty.
(* osc52_provider.go:102-108 *)
Definition osc_terms : list (list Z) :=
  [[120;116;101;114;109]; [120;116;101;114;109;45;50;53;54;99;111;108;111;114]; [115;99;114;101;101;110]; [116;109;117;120]; [116;109;117;120;45;50;53;54;99;111;108;111;114]].
(* osc52_provider.go:75-111 *)
Definition osc_is_available (v1 v2 v3 term : list Z) (tty : bool) : bool :=
  if negb tty then false else if is_ssh v1 v2 v3 then true else existsb (list_eqb term) osc_terms.
(* clipboard_linux.go:53-142: the provider runs the tool chosen when it was created; [works] says whether that program can reach a clipboard *)
Definition linux_native (wl_copy wl_paste xclip xsel : bool) (works : tool -> bool) (store : option (list Z)) : provider :=
  match native_tool wl_copy wl_paste xclip xsel with
  | None => P false None false
  | Some t => P true (if works t then match store with Some (c :: d) => Some (c :: d, Plain) | _ => None end else None) (works t)
  end.

(* clipboard_darwin.go:22-80: whether pbcopy and pbpaste are found, whether each then succeeds, and what is on the clipboard *)
Definition mac_native (has_pbcopy has_pbpaste copy_ok paste_ok : bool) (store : list Z) : provider :=
  P (if negb has_pbcopy then false else if negb has_pbpaste then false else true)
    (if has_pbpaste && paste_ok then match store with [] => None | _ => Some (store, Plain) end else None)
    (has_pbcopy && copy_ok).

(* ---------- history queries ---------- *)
(* clipboard_manager.go:258-261, 299-304, 308-313 *)
Definition history_enabled (c : clip) : bool := match hist c with Some _ => true | None => false end.
Definition history_size (c : clip) : Z := match hist c with Some h => Z.of_nat (length (entries h)) | None => 0 end.
Definition history_total (c : clip) : Z := match hist c with Some h => total_size h | None => 0 end.
(* clipboard_manager.go:273-278 *)
Definition history_entry (c : clip) (id : Z) : option entry := match hist c with Some h => get h id | None => None end.
(* clipboard_history.go:35 and runtime makeslice on a 64-bit machine: room for that many pointers is asked for at once *)
Definition enable_panics (n : Z) : bool := 2 ^ 48 <? 8 * Z.max 0 n.
