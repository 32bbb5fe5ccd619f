(** The positions at which glyphs and texts can be drawn without leaving the range of [int]. *)
From Verif Require Import Base S_Graphics S_Ranges S_Font S_Paint M_Geometry M_Font.

(** turning the canvas mirrors coordinates: their negatives must be [int]s (on a canvas with pixels this
    follows from the place in the frame buffer) *)
Definition mirrored (c : canvas) (q : Z * Z) : Prop :=
  match rot c with
  | R0 => True
  | R90 => is_int (- snd q)
  | R180 => is_int (- fst q) /\ is_int (- snd q)
  | R270 => is_int (- fst q)
  end.
(** a glyph drawn at [pos]: the corner of its box is an [int] point, and so is every set pixel, on the
    canvas, mirrored and in the frame buffer; the pixels that are not set do not matter *)
Definition glyph_room (c : canvas) (data : list Z) (g : charBitmap) (pos : Z * Z) : Prop :=
  is_point (fst pos + cox g, snd pos + coy g) /\
  forall q, glyph_pixels data g (fst pos + cox g, snd pos + coy g) q -> is_point q /\ mirrored c q /\ is_point (phys c q).
(** a text: each of its glyphs, at its place, and the position after the last glyph *)
Definition text_room (c : canvas) (f : font) (gs : list charBitmap) (pos : Z * Z) : Prop :=
  is_int (fst pos + advance gs) /\
  forall n g, nth_error gs n = Some g ->
    data_inside f g /\ glyph_room c (bitmap f) g (fst pos + advance (firstn n gs), snd pos).
(** [gs] are the bitmaps that the font has for the characters of a text *)
Definition shown_as (sg : bool) (f : font) (text : list Z) (gs : list charBitmap) : Prop :=
  Forall2 (fun b g => completes (fun fuel => getBitmap fuel sg f (as_char sg b)) g) text gs.
(** the canvas, and a text of the given width at [pos], within a thousand million pixels *)
Definition in_reach (c : canvas) (pos : Z * Z) (width : Z) : Prop :=
  0 <= cw c <= 1000000000 /\ 0 <= ch c <= 1000000000 /\
  -1000000000 <= fst pos <= 1000000000 - width /\ -1000000000 <= snd pos <= 1000000000.
