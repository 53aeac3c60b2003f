(** Putting the parts together: a program (PdModel) whose model is a confirmation dialog (CfModel), fed by the keyboard (KeysModel).
    Code: components/confirm/confirm.go Update (152-194), View (197-215). *)
From Verif Require Import Prelude Utf8 KeysModel CfModel.

(* confirm.go:152-194; the returned command is not a part of the picture *)
Definition ce_update (p : pub) (k : keymsg) : pub := pstep p (POp (CKey k)).
(** confirm.New(title).Description(desc).WithCancel(c) *)
Definition ce_new (title desc : list Z) (c : bool) : pub := psteps [PDescription desc; POp (CWithCancel c)] (pnew title).
