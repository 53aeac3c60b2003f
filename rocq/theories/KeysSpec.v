(** Specification vocabulary for keyboard input (C08-C10). *)
From Verif Require Import Prelude Utf8 KeysModel.

(** The messages: a named key, a character, Ctrl with a letter; no other modifier is ever set. *)
Notation named k := (Key k 0 false false false).
Notation letter r := (Key KRune r false false false).
Notation with_ctrl r := (Key KRune r false true false).

(** Keys that are sent as a single byte, by terminal convention. *)
Inductive byte_key : Z -> keymsg -> Prop :=
| BK_cr : byte_key 13 (named KEnter)
| BK_lf : byte_key 10 (named KEnter)
| BK_del : byte_key 127 (named KBackspace)
| BK_bs : byte_key 8 (named KBackspace)
| BK_tab : byte_key 9 (named KTab)
| BK_esc : byte_key 27 (named KEsc)
| BK_space : byte_key 32 (named KSpace)
| BK_ctrl : forall i, 1 <= i <= 26 -> ~ In i [8; 9; 10; 13] -> byte_key i (with_ctrl (96 + i))
| BK_print : forall c, 33 <= c <= 126 -> byte_key c (letter c).

(** Documented escape sequences introduced by CSI (ESC [). *)
Definition csi_keys : list (list Z * keymsg) :=
  [ ([27;91;65], named KUp); ([27;91;66], named KDown); ([27;91;67], named KRight);
    ([27;91;68], named KLeft); ([27;91;72], named KHome); ([27;91;70], named KEnd);
    ([27;91;49;126], named KHome); ([27;91;50;126], named KInsert);
    ([27;91;51;126], named KDelete); ([27;91;52;126], named KEnd);
    ([27;91;53;126], named KPgUp); ([27;91;54;126], named KPgDown);
    ([27;91;49;53;126], named KF5); ([27;91;49;55;126], named KF6);
    ([27;91;49;56;126], named KF7); ([27;91;49;57;126], named KF8);
    ([27;91;50;48;126], named KF9); ([27;91;50;49;126], named KF10);
    ([27;91;50;51;126], named KF11); ([27;91;50;52;126], named KF12) ].

(** Documented escape sequences introduced by SS3 (ESC O). *)
Definition ss3_keys : list (list Z * keymsg) :=
  [ ([27;79;80], named KF1); ([27;79;81], named KF2); ([27;79;82], named KF3); ([27;79;83], named KF4) ].

(** The complete decoding table. *)
Definition decodes (d : list Z) (k : keymsg) : Prop :=
  (exists b, d = [b] /\ byte_key b k) \/ In (d, k) csi_keys \/ In (d, k) ss3_keys.

(** What a typed character should produce: the named key for Enter, Tab, ..., Ctrl+letter
    for control codes, nothing for the unassigned controls, itself otherwise. *)
Definition char_msgs (c : Z) : list keymsg :=
  if (c =? 13) || (c =? 10) then [named KEnter]
  else if (c =? 127) || (c =? 8) then [named KBackspace]
  else if c =? 9 then [named KTab]
  else if c =? 32 then [named KSpace]
  else if (1 <=? c) && (c <=? 26) then [with_ctrl (96 + c)]
  else if c <? 32 then []
  else [letter c].
