(** Specification vocabulary for fonts. *)
From Verif Require Import Base S_Graphics M_Font.

(** the values the C++ types of a font descriptor allow *)
Definition glyph_typed (g : glyph) : Prop :=
  0 <= goff g < 65536 /\ 0 <= gw g < 256 /\ 0 <= gh g < 256 /\ 0 <= gshift g < 256 /\
  -128 <= gox g < 128 /\ -128 <= goy g < 128.
Definition font_typed (f : font) : Prop :=
  0 <= first f < 256 /\ 0 <= last f < 256 /\ bytes (bitmap f) /\ Forall glyph_typed (glyphs f).

(** the codes the font converter stores for the range first..last, in table order: the control
    codes 0x7F..0x9F are left out *)
Fixpoint count_up (n : nat) (a : Z) : list Z :=
  match n with O => [] | S n => a :: count_up n (a + 1) end.
Definition font_codes (first last : Z) : list Z :=
  filter (fun c => (c <? 0x7F) || (0x9F <? c)) (count_up (Z.to_nat (last - first + 1)) first).

(** the place of code [c] in such a table *)
Definition slot (first c : Z) : Z := if c <? 0x7F then c - first else c - first - 33.
(** a code that a [char] represents by its own value *)
Definition own_value (sg : bool) (c : Z) : Prop := sg = false \/ c < 128.
(** code [c] has an entry in the table of a font *)
Definition has_entry (sg : bool) (f : font) (c : Z) : Prop :=
  own_value sg c /\ first f <= c <= last f /\ 0 <= slot (first f) c < zlen (glyphs f).

(** [r] is what looking at entry [k] of the table gives: the entry's numbers with a view from its
    offset to the end of the bitmap; the last entry, and an entry with its offset outside the bitmap,
    is undefined behaviour *)
Definition entry_view (f : font) (k : Z) (r : res charBitmap) : Prop :=
  exists g, nth_error (glyphs f) (Z.to_nat k) = Some g /\
    (k + 1 = zlen (glyphs f) -> r = UB) /\
    (zlen (bitmap f) < goff g -> r = UB) /\
    (k + 1 < zlen (glyphs f) -> goff g <= zlen (bitmap f) ->
       r = Ok (mkCB (goff g) ((zlen (bitmap f) - goff g) mod 65536) (gw g) (gh g) (gox g) (goy g) (gshift g))).

(** the pixels of a glyph whose box starts at [o]: bit number j*w+i of its data is set *)
Definition glyph_pixels (data : list Z) (g : charBitmap) (o q : Z * Z) : Prop :=
  exists i j, 0 <= i < ew g /\ 0 <= j < eh g /\ q = (fst o + i, snd o + j) /\
    img_bit data (8 * cstart g + j * ew g + i) = true.
(** number of data bytes of a glyph *)
Definition data_bytes (g : charBitmap) : Z := (ew g * eh g + 7) / 8.
(** all data bytes of a glyph are inside the font's bitmap *)
Definition data_inside (f : font) (g : charBitmap) : Prop :=
  0 <= cstart g /\ cstart g + data_bytes g <= zlen (bitmap f).

(** sum of the advances of glyphs *)
Fixpoint advance (gs : list charBitmap) : Z :=
  match gs with [] => 0 | g :: gs => cwidth g + advance gs end.
(** the pixels of a text: glyph number [n] starts after the advances of the glyphs before it *)
Definition text_pixels (data : list Z) (gs : list charBitmap) (p q : Z * Z) : Prop :=
  exists n g, nth_error gs n = Some g /\
    glyph_pixels data g (fst p + advance (firstn n gs) + cox g, snd p + coy g) q.
