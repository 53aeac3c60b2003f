(** What a terminal shows for a styled text: the characters it prints (line breaks included) with their graphic rendition. The
    meaning of the SGR parameters is TermEmu's. *)
From Verif Require Import Prelude TermEmu SyModel.

Fixpoint obs (st : pstate) (p : pen) (l : list Z) : list (Z * pen) * (pstate * pen) :=
  match l with
  | [] => ([], (st, p))
  | c :: r =>
    match st with
    | Ground => if c =? 27 then obs Esc p r else let '(o, e) := obs Ground p r in ((c, p) :: o, e)
    | Esc => if c =? 91 then obs (Csi [] 0 false) p r else obs Ground p r
    | Csi done cur priv =>
        if is_digit c then obs (Csi done (cur * 10 + (c - 48)) priv) p r
        else if c =? 59 then obs (Csi (cur :: done) 0 priv) p r
        else if (64 <=? c) && (c <=? 126) then obs Ground (if c =? 109 then sgr (rev (cur :: done)) p else p) r
        else obs st p r
    | Osc => obs Ground p r
    end
  end.
(** From a terminal in its default state. *)
Definition shows (l : list Z) (cells : list (Z * pen)) (after : pen) : Prop := obs Ground pen0 l = (cells, (Ground, after)).
Definition paint (p : pen) (l : list Z) : list (Z * pen) := map (fun c => (c, p)) l.
(** What a colour of a style looks like at a colour capability, and likewise a border's colour. *)
Definition look (k : cap) (c : color) : option tcolor :=
  match k with NoColor => None | ANSI16 => Some (Idx (to16 c)) | ANSI256 => Some (Idx (to256 c)) | TrueColor => Some (TermEmu.Rgb (cr c) (cg c) (cb c)) end.
Definition blook (k : cap) (c : color) : option tcolor :=
  match k with NoColor => None | ANSI16 => Some (Idx (border16 c)) | ANSI256 => Some (Idx (border256 c)) | TrueColor => Some (TermEmu.Rgb (cr c) (cg c) (cb c)) end.
(** A pen with another foreground or background, if one is given. *)
Definition set_fg (p : pen) (o : option tcolor) : pen := match o with None => p | _ => Pen o (p_bg p) (p_bold p) (p_dim p) (p_italic p) (p_underline p) (p_blink p) (p_reverse p) (p_hidden p) (p_strike p) end.
Definition set_bg (p : pen) (o : option tcolor) : pen := match o with None => p | _ => Pen (p_fg p) o (p_bold p) (p_dim p) (p_italic p) (p_underline p) (p_blink p) (p_reverse p) (p_hidden p) (p_strike p) end.
(** The pen a style asks for. *)
Definition style_pen (s : style) : pen :=
  Pen (match fg s with Some c => look (scap s) c | None => None end) (match bg s with Some c => look (scap s) c | None => None end)
      (bold s) false (italic s) (underline s) false false false (strike s).
Definition colors_ok (s : style) : Prop := (forall c, fg s = Some c -> color_ok c) /\ (forall c, bg s = Some c -> color_ok c) /\ (forall c, bcolor s = Some c -> color_ok c).
(** Which characters a border is drawn with. *)
Definition border_has (b : border) (x : Z) : Prop := In x (bTop b ++ bBottom b ++ bLeft b ++ bRight b ++ bTL b ++ bTR b ++ bBL b ++ bBR b).
(** [thin] characters are one cell wide: around a text they add their number to its width. *)
Definition additive (sw : list Z -> Z) (thin : Z -> Prop) (l : list Z) : Prop :=
  forall a b, Forall thin a -> Forall thin b -> sw (a ++ l ++ b) = Z.of_nat (length a) + sw l + Z.of_nat (length b).
(** A border each of whose pieces is one thin character. *)
Definition thin_border (thin : Z -> Prop) (b : border) : Prop :=
  Forall (fun p => exists r, p = [r] /\ r <> 10 /\ thin r) [bTop b; bBottom b; bLeft b; bRight b; bTL b; bTR b; bBL b; bBR b].
Definition widest (sw : list Z -> Z) (ls : list (list Z)) (w : Z) : Prop := (forall l, In l ls -> sw l <= w) /\ (exists l, In l ls /\ sw l = w).
Definition nonneg (p : spacing) : Prop := 0 <= top p /\ 0 <= right p /\ 0 <= bottom p /\ 0 <= left p.
