(** Model of the font converter without its text output: gfx-font-converter/BitStream.h,
    EncodingConverter.cpp, FontConverterConfig.cpp (the code range) and the table loop and binary
    output of main.cpp.
    FreeType and iconv are oracles; the calls, exceptions and files of [main] are in M_Converter, the
    options in M_Options. *)
From Verif Require Import Base M_Font.

(** BitStream.h:6-54; [sent] is what the underlying stream received *)
Record bitStream := mkBits { bitCount : Z; bbuf : Z; sent : list Z }.
Definition newBits : bitStream := mkBits 0 0 [].
(** BitStream.h:11-24, [operator<<(bool)] *)
Definition putBit (b : bool) (s : bitStream) : bitStream :=
  let buffer := if b then u8 (Z.lor (bbuf s) (Z.shiftl 1 (7 - bitCount s))) else bbuf s in
  if bitCount s + 1 =? 8 then mkBits 0 0 (sent s ++ [buffer]) else mkBits (bitCount s + 1) buffer (sent s).
(** BitStream.h:26-39, [operator<<(uint8_t)] *)
Definition putByte (b : Z) (s : bitStream) : bitStream :=
  if bitCount s =? 0 then mkBits (bitCount s) (bbuf s) (sent s ++ [b])
  else mkBits (bitCount s) (u8 (Z.shiftl b (8 - bitCount s)))
         (sent s ++ [u8 (Z.lor (bbuf s) (Z.shiftr b (bitCount s)))]).
(** BitStream.h:41-49 *)
Definition flushBits (s : bitStream) : bitStream :=
  if negb (bitCount s =? 0) then mkBits 0 0 (sent s ++ [bbuf s]) else s.

(** the operations on a BitStream in one type *)
Inductive bitOp := PutBit (b : bool) | PutByte (b : Z) | FlushBits.
Definition bitStep (o : bitOp) (s : bitStream) : bitStream :=
  match o with PutBit b => putBit b s | PutByte b => putByte b s | FlushBits => flushBits s end.
Fixpoint bitRun (os : list bitOp) (s : bitStream) : bitStream :=
  match os with [] => s | o :: os => bitRun os (bitStep o s) end.

(** what FreeType renders for a character: FT_Bitmap rows, width, pitch, buffer and
    FT_BitmapGlyphRec left, top, root.advance.x (16.16) *)
Record rendered := mkRendered { rrows : Z; rwidth : Z; rpitch : Z; rbuf : list Z; rleft : Z; rtop : Z; radvance : Z }.

(** main.cpp:301-306, the loop over x ([n] columns left); [y] and [x] are unsigned, so the index is
    computed modulo 2^32 *)
Fixpoint packRow (n : nat) (r : rendered) (x y : Z) (s : bitStream) : res bitStream :=
  match n with
  | O => Ok s
  | S n =>
    do b <- rd (rbuf r) (u32 (u32 (y * rpitch r) + x / 8));
    packRow n r (x + 1) y (putBit (negb (Z.land b (Z.shiftr 0x80 (Z.land x 7)) =? 0)) s)
  end.
(** main.cpp:299-307, the loop over y ([n] rows left) *)
Fixpoint packRows (n : nat) (r : rendered) (y : Z) (s : bitStream) : res bitStream :=
  match n with
  | O => Ok s
  | S n => do s <- packRow (Z.to_nat (rwidth r)) r 0 y s; packRows n r (y + 1) s
  end.
(** main.cpp:185-189, [GlyphData]: the descriptor (its bitmapOffset holds the size for now) and the data *)
Notation glyphData := (glyph * list Z)%type.
(** main.cpp:299-314, one pass of the table loop; the moved-from vector is empty, so the BitStream's
    output starts empty again.  [left] and [1-top] are converted to char and then to int8_t.
    (Simplification: [1-top] is not checked for overflow, which only [top] = INT_MIN could cause.) *)
Definition packGlyph (r : rendered) (s : bitStream) : res (glyphData * bitStream) :=
  do s <- packRows (Z.to_nat (rrows r)) r 0 s;
  let s := flushBits s in
  let data := sent s in
  Ok (mkGlyph (u16 (zlen data)) (u8 (rwidth r)) (u8 (rrows r)) (u8 (Z.shiftr (radvance r) 16))
        (s8 (rleft r)) (s8 (1 - rtop r)), data,
      mkBits (bitCount s) (bbuf s) []).

(** ** EncodingConverter *)
(** what iconv does with an input: converts it (output bytes, at most the 4 offered), reports an
    incomplete sequence (EINVAL) or another error *)
Inductive iconvResult := Converted (out : list Z) | Incomplete | IconvError.
(** EncodingConverter.h:21-23; [calls] counts the calls so that the oracle may depend on the history *)
Record encoder := mkEnc { ebuf : list Z; inSize : Z; calls : nat }.
(** EncodingConverter.h:22-23 *)
Definition newEncoder : encoder := mkEnc [0; 0; 0; 0] 0 0.
(** EncodingConverter.cpp:23-43 and 45-68: the common part of [convert] and [convertRaw]; the result
    is the output of iconv, or nothing on an error *)
Definition convertBytes (iconv : nat -> list Z -> iconvResult) (symbol : Z) (e : encoder)
  : res (list Z * encoder) :=
  do b <- wr (ebuf e) (inSize e) symbol;
  do input <- rd_slice b 0 (1 + inSize e);
  match iconv (calls e) input with
  | Incomplete => Ok ([], mkEnc b ((inSize e + 1) mod 3) (S (calls e)))
  | IconvError => Ok ([], mkEnc b 0 (S (calls e)))
  | Converted out => Ok (out, mkEnc b (inSize e) (S (calls e)))
  end.
(** EncodingConverter.cpp:45-68: the union read as uint32_t (little-endian host) *)
Definition convertRaw (iconv : nat -> list Z -> iconvResult) (symbol : Z) (e : encoder) : res (Z * encoder) :=
  do ' (out, e) <- convertBytes iconv symbol e;
  Ok (nthZ out 0 + 256 * nthZ out 1 + 65536 * nthZ out 2 + 16777216 * nthZ out 3, e).

(** ** The table *)
(** FontConverterConfig.h:26-27, FontConverterConfig.cpp:45-52: first and last code; the encoding is
    already upper case *)
Definition firstChar : Z := 32.
Definition lastChar (ascii : bool) : Z := if ascii then 126 else 255.
(** main.cpp:292: the sequence of values of [i] in the table loop *)
Fixpoint codeLoop (fuel : nat) (i last : Z) : res (list Z) :=
  match fuel with
  | O => Fuel
  | S fuel =>
    if i <=? last then do l <- codeLoop fuel (if i =? 126 then 0xA0 else i + 1) last; Ok (i :: l)
    else Ok []
  end.
(** main.cpp:292-316: the body for each code; [render] is FreeType for a UCS-4 code *)
Fixpoint tableLoop (iconv : nat -> list Z -> iconvResult) (render : Z -> rendered) (codes : list Z)
    (e : encoder) (s : bitStream) : res (list glyphData) :=
  match codes with
  | [] => Ok []
  | i :: codes =>
    do ' (u, e) <- convertRaw iconv (u8 i) e;
    do ' (g, s) <- packGlyph (render u) s;
    do t <- tableLoop iconv render codes e s;
    Ok (g :: t)
  end.
(** main.cpp:279-317 *)
Definition makeTable (fuel : nat) (iconv : nat -> list Z -> iconvResult) (render : Z -> rendered) (first last : Z)
  : res (list glyphData) :=
  do codes <- codeLoop fuel first last;
  tableLoop iconv render codes newEncoder newBits.

(** ** Binary output *)
(** main.cpp:329-332: the bitmap file *)
Definition bitmapsFile (t : list glyphData) : list Z := concat (map snd t).
(** main.cpp:343-355: the descriptors written, with the running offset (uint16_t) *)
Fixpoint binaryGlyphs (offset : Z) (t : list glyphData) : list glyph :=
  match t with
  | [] => []
  | (g, data) :: t =>
    mkGlyph offset (gw g) (gh g) (gshift g) (gox g) (goy g) :: binaryGlyphs (u16 (offset + zlen data)) t
  end.
(** GFXFontsAdapter.h:9-17: the packed bytes of a descriptor (little-endian host) *)
Definition glyphBytes (g : glyph) : list Z :=
  [goff g mod 256; goff g / 256; gw g; gh g; gshift g; u8 (gox g); u8 (goy g)].
(** main.cpp:343-355: the glyph file *)
Definition glyphsFile (t : list glyphData) : list Z := concat (map glyphBytes (binaryGlyphs 0 t)).
