(** The inline renderer over an output whose writes can fail. *)
From Verif Require Import Prelude Utf8 TermEmu InlineModel InlineSpec TruncProofs TruncItems InlineEmu InlineFrames InlineProps InlineIoModel.

(* ---------- specification ---------- *)
(** The calls that did not fail; no failed write got anywhere. *)
Definition kept (cs : list ocall) : list scall := flat_map (fun c => match c with Works c => [c] | Fails _ _ => [] end) cs.
Definition nothing_taken (cs : list ocall) : Prop := Forall (fun c => match c with Works _ => True | Fails _ k => k = 0%nat end) cs.

(* ---------- C328 ---------- *)
Lemma io_kept zw cs : nothing_taken cs -> forall r, snd (io_calls zw r cs) = do_icalls zw r (map to_icall (kept cs)).
Proof.
  induction 1 as [|c cs Hc N IH]; intros r; [reflexivity|]. cbn [io_calls]. destruct c as [c|v k].
  - cbn [io_call kept flat_map app map do_icalls]. fold (kept cs). destruct (do_icall zw r (to_icall c)) as [r1 o1]. rewrite <- (IH r1). destruct (io_calls zw r1 cs) as [oks [r2 o2]]. reflexivity.
  - subst k. cbn [kept flat_map app]. fold (kept cs). rewrite <- (IH r). cbn [io_call to_icall firstn]. destruct (unchanged _ _); destruct (io_calls zw r cs) as [oks [r2 o2]]; reflexivity.
Qed.
(** Renders whose write failed before the terminal took anything leave no trace: after any history of them and of working calls the
    screen is what C11 says of the working calls alone - so rendering the same view again shows it. *)
Theorem C328_failed_render_can_be_retried : forall cw zw W H t w h cs,
  1 <= W -> tw t = W -> th t = H -> pst t = Ground -> pend t = false -> cx t = 0 -> 0 <= cy t < H ->
  (forall x y, 0 <= x < W -> cy t <= y < H -> cell2 (grid t x y) = blankc) ->
  nothing_taken cs -> adm cw zw W H w h false [] (kept cs) ->
  let frame := displayed (rdw zw) w h [] (kept cs) in
  let t' := emu cw t (snd (snd (io_calls zw (new_inline w h) cs))) in
  exists top, 0 <= top <= cy t /\
    cx t' = 0 /\ cy t' = top + Z.of_nat (pred (length frame)) /\ cy t' < H /\
    (forall j x, 0 <= x < W -> top + Z.of_nat j < H ->
       cell2 (grid t' x (top + Z.of_nat j)) = nth (Z.to_nat x) (paint cw (visible (nth j frame []))) blankc) /\
    (forall x y, 0 <= y < top -> grid t' x y = grid t x (y + (cy t - top))).
Proof. intros cw zw W H t w h cs A1 A2 A3 A4 A5 A6 A7 A8 N A. rewrite (io_kept zw cs N). apply C11_region_shows_last_view; assumption. Qed.
(** The retry is not mistaken for an unchanged view, and the answer tells: a failed Render of a new view reports it, and the next
    Render of that view writes the frame the failed one would have written. *)
Theorem C328_retry_writes_the_frame : forall zw r v k, unchanged r (match to_icall (SRender v) with IRender s => s | _ => [] end) = false ->
  let '(ok, (r1, _)) := io_call zw r (Fails v k) in ok = false /\ r1 = r /\ snd (io_call zw r1 (Works (SRender v))) = do_icall zw r (to_icall (SRender v)) /\ snd (snd (io_call zw r1 (Works (SRender v)))) <> [].
Proof.
  intros zw r v k U. cbn [io_call to_icall] in *. rewrite U. split; [reflexivity|]. split; [reflexivity|]. split; [reflexivity|]. cbn [snd do_icall]. unfold irender. unfold unchanged in U. rewrite U. cbn [snd].
  intros E. apply (f_equal (@length Z)) in E. rewrite !app_length in E. cbn [length] in E. lia.
Qed.

(* ---------- C329: a failed write that got part of the frame out (violated) ---------- *)
(** A prompt in the first row, a two-line view below it; the next frame's write fails after the cursor was moved up, and is tried again:
    the view is drawn one row too high, over the prompt. *)
Definition prompt : term := emu (rdw zw0) (blank_term 6 4 false) [36; 13; 10].
Theorem C329_partial_write_refuted : exists v1 v2 k, let cs := [Works (SRender v1); Fails v2 k; Works (SRender v2)] in
  let t' := emu (rdw zw0) prompt (snd (snd (io_calls zw0 (new_inline 6 4) cs))) in
  (pst prompt = Ground /\ pend prompt = false /\ cx prompt = 0 /\ cy prompt = 1) /\ tch (grid prompt 0 0) = 36 /\
  fst (io_calls zw0 (new_inline 6 4) cs) = [true; false; true] /\
  displayed (rdw zw0) 6 4 [] (kept cs) = [txt [99]; txt [100]] /\
  tch (grid t' 0 0) = 99 /\ tch (grid t' 0 1) = 100.
Proof. exists [txt [97]; txt [98]], [txt [99]; txt [100]], 5%nat. vm_compute. repeat split. Qed.
Example C328_ex : exists cs, nothing_taken cs /\ kept cs = history /\ In false (fst (io_calls zw0 (new_inline 5 0) cs)).
Proof.
  exists (Fails [txt [120]] 0 :: flat_map (fun c => [Works c; Fails [txt [121]] 0]) history). split; [|split; [reflexivity|vm_compute; auto]].
  constructor; [reflexivity|]. apply Forall_flat_map. apply Forall_forall. intros c _. repeat constructor.
Qed.

Print Assumptions C328_failed_render_can_be_retried. Print Assumptions C328_retry_writes_the_frame. Print Assumptions C329_partial_write_refuted.
