(** Model of graphics/GFXFontsAdapter.h, graphics/EmbeddedFont.h, graphics/EmbeddedFont.cpp and of
    [Canvas::drawCharAt], [Canvas::drawStringAt].
    [sg] tells whether [char] is signed (implementation-defined).  Text is a list of codes 0..255;
    [as_char sg] turns a code into the value of the [char].
    Not modelled: [FontDescriptor::verticalShift] (never read). *)
From Verif Require Import Base M_Geometry M_Canvas.

(** GFXFontsAdapter.h:10-16, [GlyphDescriptor]: bitmapOffset, size, shift, offset *)
Record glyph := mkGlyph { goff : Z; gw : Z; gh : Z; gshift : Z; gox : Z; goy : Z }.
(** GFXFontsAdapter.h:19-26, [FontDescriptor]; the views are the whole tables *)
Record font := mkFont { bitmap : list Z; glyphs : list glyph; first : Z; last : Z }.

(** the value of a [char] holding the code [b] (also the conversion uint8_t -> char) *)
Definition as_char (sg : bool) (b : Z) : Z := if sg then s8 b else b.

(** EmbeddedFont.cpp:9-22: the part of [getBitmap] that finds the glyph number [pos]; both recursive
    calls are tail calls with the argument [first].  The comparison at line 19 converts [pos] to
    size_t, so a negative [pos] is larger than every table size. *)
Fixpoint glyphIndex (fuel : nat) (sg : bool) (f : font) (symbol : Z) : res Z :=
  match fuel with
  | O => Fuel
  | S fuel =>
    if (symbol <? first f) || (symbol >? last f) then glyphIndex fuel sg f (as_char sg (first f))
    else
      let pos := symbol - first f in
      let pos := if symbol >? 126 then pos - (0xA0 - 126 - 1) else pos in
      if (pos <? 0) || (pos >=? zlen (glyphs f)) then glyphIndex fuel sg f (as_char sg (first f))
      else Ok pos
  end.

(** EmbeddedFont.h:13-19, [CharacterBitmap]; the view [bitmap] is its start (as an offset into the
    font's bitmap) and its size *)
Record charBitmap := mkCB { cstart : Z; csize : Z; ew : Z; eh : Z; cox : Z; coy : Z; cwidth : Z }.

(** [glyph[pos]]: outside the table is undefined behaviour *)
Definition glyphAt (f : font) (pos : Z) : res glyph :=
  if pos <? 0 then UB else match nth_error (glyphs f) (Z.to_nat pos) with Some g => Ok g | None => UB end.
(** [bitmap.begin() + off]: undefined behaviour beyond the end *)
Definition bitmapPtr (f : font) (off : Z) : res Z := guard (off <=? zlen (bitmap f)) (Ok off).

(** EmbeddedFont.cpp:23-32 *)
Definition bitmapOf (f : font) (pos0 : Z) : res charBitmap :=
  do g <- glyphAt f pos0;
  do bitmapBegin <- bitmapPtr f (goff g);
  let pos := pos0 + 1 in
  do bitmapEnd <- (if negb (pos =? zlen (glyphs f)) then Ok (zlen (bitmap f))
                   else do g2 <- glyphAt f pos; bitmapPtr f (goff g2));
  Ok (mkCB bitmapBegin (u16 (bitmapEnd - bitmapBegin)) (gw g) (gh g) (gox g) (goy g) (gshift g)).

(** EmbeddedFont.cpp:7-33, [getBitmap] *)
Definition getBitmap (fuel : nat) (sg : bool) (f : font) (symbol : Z) : res charBitmap :=
  do pos <- glyphIndex fuel sg f symbol; bitmapOf f pos.

(** Canvas.cpp:15-26, the inner loop of [drawCharAt] from column [i] on ([n] columns left); the
    result has the plotted points and the pointer *)
Fixpoint glyphRow (n : nat) (m : matrix) (shifts pos : pt) (bits : list Z) (w i j ptr : Z)
  : res (list pt * Z) :=
  match n with
  | O => Ok ([], ptr)
  | S n =>
    do b <- rd bits ptr;
    do ps <- (if negb (Z.land b (Z.shiftr 0x80 (Z.rem (i + j * w) 8)) =? 0) then
                do p <- pt_add pos (i, j); do q <- mat_mul m p; do a <- pt_add q shifts; Ok [a]
              else Ok []);
    let ptr := if Z.rem (i + j * w) 8 =? 7 then ptr + 1 else ptr in
    do ' (l, ptr) <- glyphRow n m shifts pos bits w (i + 1) j ptr;
    Ok (ps ++ l, ptr)
  end.
(** Canvas.cpp:13-27, the outer loop from row [j] on ([n] rows left) *)
Fixpoint glyphRows (n : nat) (m : matrix) (shifts pos : pt) (bits : list Z) (w j ptr : Z)
  : res (list pt) :=
  match n with
  | O => Ok []
  | S n =>
    do ' (l, ptr) <- glyphRow (Z.to_nat w) m shifts pos bits w 0 j ptr;
    do l2 <- glyphRows n m shifts pos bits w (j + 1) ptr;
    Ok (l ++ l2)
  end.

(** Canvas.cpp:5-29, [drawCharAt]: the plotted points and the returned advance *)
Definition drawCharAt (fuel : nat) (sg : bool) (c : canvas) (f : font) (pos : pt) (symbol : Z)
  : res (list pt * Z) :=
  let m := getTransformMatrix c in
  do shifts <- getShifts c;
  do g <- getBitmap fuel sg f symbol;
  do y <- chk (snd pos + coy g);
  do x <- chk (fst pos + cox g);
  do l <- glyphRows (Z.to_nat (eh g)) m shifts (x, y) (bitmap f) (ew g) 0 (cstart g);
  Ok (l, cwidth g).

(** Canvas.h:63-69, [drawStringAt] *)
Fixpoint drawStringAt (fuel : nat) (sg : bool) (c : canvas) (f : font) (topLeft : pt) (text : list Z)
  : res (list pt) :=
  match text with
  | [] => Ok []
  | b :: text =>
    do ' (l, adv) <- drawCharAt fuel sg c f topLeft (as_char sg b);
    do x <- chk (fst topLeft + adv);
    do l2 <- drawStringAt fuel sg c f (x, snd topLeft) text;
    Ok (l ++ l2)
  end.

(** EmbeddedFont.cpp:42-56, the loop of [getTextBounds]; [n] is [view.size()] *)
Fixpoint boundsLoop (fuel : nat) (sg : bool) (f : font) (n i : Z) (text : list Z)
    (lft width maxBottom minTop : Z) : res (Z * Z * Z * Z) :=
  match text with
  | [] => Ok (lft, width, maxBottom, minTop)
  | b :: text =>
    do g <- getBitmap fuel sg f (as_char sg b);
    do ' (lft, width) <-
      (if i =? 0 then Ok (- cox g, ew g)
       else do w <- chk (width + (if i <? n - 1 then cwidth g else ew g)); Ok (lft, w));
    boundsLoop fuel sg f n (i + 1) text lft width
      (Z.max maxBottom (coy g + eh g)) (Z.min minTop (coy g))
  end.
(** EmbeddedFont.cpp:35-61, [getTextBounds] *)
Definition getTextBounds (fuel : nat) (sg : bool) (f : font) (text : list Z) : res rect :=
  match text with
  | [] => Ok (mkRect (0, 0) (0, 0))
  | _ => do ' (lft, width, maxBottom, minTop) <- boundsLoop fuel sg f (zlen text) 0 text 0 0 (-255) 0;
         Ok (mkRect (lft, - minTop) (width, maxBottom - minTop))
  end.
