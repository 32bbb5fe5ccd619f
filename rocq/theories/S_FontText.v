(** Specification of the text the font converter writes. *)
From Coq Require Import String Ascii.
From Verif Require Import Base S_BufferedOut S_Font S_Packing M_Font M_Packing M_FontText.
Open Scope Z_scope.
Open Scope list_scope.

(** what stands before byte number [k] of an array: every 12th byte starts a new line *)
Definition before_byte (k : Z) : list Z :=
  if k =? 0 then txt "  " else if k mod 12 =? 0 then txt "," ++ [10] ++ txt "  " else txt ", ".
Fixpoint byte_literals (k : Z) (bs : list Z) : list Z :=
  match bs with [] => [] | b :: bs => before_byte k ++ txt "0x" ++ hex2 b ++ byte_literals (k + 1) bs end.
(** first line of the bitmap array *)
Definition array_head (name : list Z) : list Z := txt "const uint8_t " ++ name ++ txt "Bitmaps[] = {" ++ [10].
Definition array_tail : list Z := txt " };" ++ [10; 10].

(** reading the literals of such a text: every "0x" is followed by two hexadecimal digits *)
Definition hexval (c : Z) : Z := if c <? 58 then c - 48 else c - 55.
Fixpoint read_literals (t : list Z) : list Z :=
  match t with
  | c0 :: (c1 :: h :: l :: t') as r => if (c0 =? 48) && (c1 =? 120) then (16 * hexval h + hexval l) :: read_literals t' else read_literals r
  | _ => []
  end.

(** a number set to the right of a field of [w] blanks *)
Definition right_aligned (w n : Z) (out : list Z) : Prop :=
  exists t pad, dec_text n t /\ out = pad ++ t /\ Forall (eq 32) pad /\ zlen out = w.
(** the offset column: five characters; a larger number loses its last digits *)
Definition offset_column (n : Z) (out : list Z) : Prop := exists t, dec_text n t /\ in_field 5 32 t out.

(** the label of a code: the ASCII character itself, otherwise what iconv makes of the code *)
Definition label (iconv : nat -> list Z -> iconvResult) (c : Z) (out : list Z) : Prop :=
  (c <= 126 /\ out = [c]) \/
  (126 < c /\ exists n, out = match iconv n [c] with Converted o => o | _ => [] end).

(** the line of a glyph *)
Definition glyph_line (iconv : nat -> list Z -> iconvResult) (off c : Z) (closing : bool) (g : glyph) (out : list Z) : Prop :=
  exists o w h s x y l,
    offset_column off o /\ right_aligned 4 (gw g) w /\ right_aligned 4 (gh g) h /\ right_aligned 4 (gshift g) s /\
    right_aligned 4 (gox g) x /\ right_aligned 5 (goy g) y /\ label iconv c l /\
    out = txt "  { " ++ o ++ txt ", {" ++ w ++ txt "," ++ h ++ txt " }," ++ s ++ txt ", { " ++ x ++ txt "," ++ y ++ txt " } }" ++
          (if closing then txt " }; // 0x" else txt ",   // 0x") ++ hex2 c ++ txt " '" ++ l ++ txt "'" ++ [10].

(** the lines of a table: codes [cs] from the first one on, offsets from [off] on by the sizes of the
    bitmaps; the line of the last code closes the array *)
Fixpoint glyph_lines (iconv : nat -> list Z -> iconvResult) (last off : Z) (cs : list Z) (l : list glyph) (lines : list (list Z)) {struct l} : Prop :=
  match l, cs, lines with
  | [], _, [] => True
  | g :: l, c :: cs, x :: lines => glyph_line iconv off c (c =? last) g x /\ glyph_lines iconv last (off + goff g) cs l lines
  | _, _, _ => False
  end.
Definition table_head (name : list Z) : list Z := txt "const GFXglyph " ++ name ++ txt "Glyphs[] = {" ++ [10].

(** an iconv that never finds a single byte incomplete and writes at most the four bytes offered *)
Definition whole_bytes (iconv : nat -> list Z -> iconvResult) : Prop :=
  forall n c, iconv n [c] <> Incomplete /\ forall o, iconv n [c] = Converted o -> zlen o <= 4.

(** the font structure *)
Definition struct_text (name : list Z) (first last height : Z) (out : list Z) : Prop :=
  exists h, dec_text height h /\
    out = txt "const GFXfont " ++ name ++ txt " = {" ++ [10] ++
          txt "  " ++ name ++ txt "Bitmaps," ++ [10] ++
          txt "  " ++ name ++ txt "Glyphs," ++ [10] ++
          txt "  0x" ++ hex2 first ++ txt ", 0x" ++ hex2 last ++ txt ", " ++ h ++ txt " };" ++ [10].
