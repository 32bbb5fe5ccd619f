(** Model of the text output of the font converter: gfx-font-converter/main.cpp BufferedStreamBase,
    HexStringStream, TextGlyphStream, writeHeaderFile.  The output file is a list of characters; for
    the calls and their errors see M_Converter. *)
From Coq Require Import String Ascii.
From Verif Require Import Base M_BufferedOut M_Font M_Packing.
Open Scope Z_scope.
Open Scope list_scope.

(** the characters of a literal *)
Fixpoint txt (s : string) : list Z :=
  match s with EmptyString => [] | String a s => Z.of_N (N_of_ascii a) :: txt s end.
(** a C string literal inserted into a BufferedOut (const char overload): its characters and a NUL *)
Definition lit (s : string) : iop := ICStr (txt s ++ [0]).
(** the newline character *)
Definition nl : Z := 10.

(** main.cpp:21-51, [BufferedStreamBase]: the BufferedOut and what was written to the file *)
Record stream := mkStream { sbo : bo; file : list Z }.
(** main.cpp:24-28, 48: a zeroed buffer of 1024 characters *)
Definition openStream (f : list Z) : stream := mkStream (create (repeat 0 1024)) f.
(** main.cpp:35-43 *)
Definition flush (s : stream) : stream :=
  let view := asStringView (sbo s) in
  if 0 <? zlen view then mkStream (clear (sbo s)) (file s ++ view) else s.
(** insertions into [getBufferedOut()] *)
Definition ins (os : list iop) (s : stream) : res stream :=
  do b <- irun os (sbo s); Ok (mkStream b (file s)).

(** main.cpp:53-110, [HexStringStream] *)
Record hexStream := mkHex { hs : stream; bytesWritten : Z; totalBytesWritten : Z }.
(** main.cpp:58-59, defaulted parameters *)
Definition bytesInLine : Z := 12.
Definition indent : nat := 2.
(** main.cpp:56-66 *)
Definition openHex (fontName f : list Z) : res hexStream :=
  do s <- ins [lit "const uint8_t "; IStr fontName; ICStr (txt "Bitmaps[] = {" ++ [nl; 0])] (openStream f);
  Ok (mkHex (flush s) 0 0).
(** main.cpp:73-101 *)
Definition putHex (byte : Z) (h : hexStream) : res hexStream :=
  do ' (s, w) <-
    (if negb (bytesWritten h =? 0) then
       do s <- ins [IChar 44] (hs h);
       if bytesInLine =? bytesWritten h then
         do s <- ins [IChar nl] s; Ok (flush s, 0)
       else do s <- ins [IChar 32] s; Ok (s, bytesWritten h)
     else Ok (hs h, bytesWritten h));
  do s <- (if w =? 0 then ins (repeat (IChar 32) indent) s else Ok s);
  do s <- ins [lit "0x"; IByte byte] s;
  do w <- chk (w + 1);
  do t <- chk (totalBytesWritten h + 1);
  Ok (mkHex s w t).
(** the loop of main.cpp:224-230 *)
Fixpoint putHexAll (bs : list Z) (h : hexStream) : res hexStream :=
  match bs with [] => Ok h | b :: bs => do h <- putHex b h; putHexAll bs h end.
(** main.cpp:68-71 and 30-33: the destructors; the result is the file *)
Definition closeHex (h : hexStream) : res (list Z) :=
  do s <- ins [ICStr (txt " };" ++ [nl; nl; 0])] (hs h); Ok (file (flush s)).

(** main.cpp:112-183, [TextGlyphStream] *)
Record glyphStream := mkGS { gs : stream; enc : encoder; currentGlyph : Z; glyphLast : Z; textOffset : Z }.
(** main.cpp:115-123: the first line goes directly to the file *)
Definition openGlyphs (fontName : list Z) (ascii : bool) (f : list Z) : glyphStream :=
  mkGS (openStream (f ++ txt "const GFXglyph " ++ fontName ++ txt "Glyphs[] = {" ++ [nl]))
    newEncoder 0x20 (if ascii then 126 else 0xFF) 0.
(** main.cpp:132-174.  [junk] is what std::to_chars would leave behind if a number did not fit;
    [(int)bitmapOffset] is taken as the value modulo 2^32 read as a signed number. *)
Definition putGlyph (iconv : nat -> list Z -> iconvResult) (junk : list Z) (g : glyph) (t : glyphStream) : res glyphStream :=
  let int z := let m := u32 z in if m <? 2147483648 then m else m - 4294967296 in
  do s <- ins [lit "  { "; IWidth 5; IInt (int (textOffset t)) junk; lit ", {"; IWidth 4; IInt (gw g) junk;
               lit ","; IWidth 4; IInt (gh g) junk; lit " },"; IWidth 4; IInt (gshift g) junk; lit ", { ";
               IWidth 4; IInt (gox g) junk; lit ","; IWidth 5; IInt (goy g) junk; lit " } }"] (gs t);
  let c := currentGlyph t in
  do s <- (if c <? glyphLast t then ins [lit ",   // 0x"; IByte (u8 c)] s
           else ins [lit " }; // 0x"; IByte (u8 c)] s);
  do ' (s, e) <-
    (if (32 <=? c) && (c <=? 126) then do s <- ins [lit " '"; IChar c; lit "'"] s; Ok (s, enc t)
     else if 126 <? c then
       do ' (out, e) <- convertBytes iconv (u8 c) (enc t);
       do s <- ins [lit " '"; IStr out; lit "'"] s; Ok (s, e)
     else Ok (s, enc t));
  do s <- ins [IChar nl] s;
  let c' := if c <? glyphLast t then if c =? 126 then 0xA0 else c + 1 else c in
  Ok (mkGS (flush s) e c' (glyphLast t) (textOffset t + goff g)).
(** the loop of main.cpp:234-237 *)
Fixpoint putGlyphs (iconv : nat -> list Z -> iconvResult) (junk : list Z) (l : list glyph) (t : glyphStream) : res glyphStream :=
  match l with [] => Ok t | g :: l => do t <- putGlyph iconv junk g t; putGlyphs iconv junk l t end.
(** main.cpp:125-130 and 30-33 *)
Definition closeGlyphs (t : glyphStream) : res (list Z) :=
  do s <- ins [ICStr [nl; 0]] (gs t); Ok (file (flush (flush s))).

(** main.cpp:240-252: the font structure *)
Definition fontStruct (fontName : list Z) (first last height : Z) (junk : list Z) : res (list Z) :=
  do b <- irun [lit "const GFXfont "; IStr fontName; ICStr (txt " = {" ++ [nl; 0]);
                lit "  "; IStr fontName; ICStr (txt "Bitmaps," ++ [nl; 0]);
                lit "  "; IStr fontName; ICStr (txt "Glyphs," ++ [nl; 0]);
                lit "  0x"; IByte (u8 first); lit ", 0x"; IByte (u8 last); lit ", ";
                IInt height junk; ICStr (txt " };" ++ [nl; 0])] (create (repeat 0 1024));
  Ok (asStringView b).
(** main.cpp:209-253, [writeHeaderFile]: the contents of the file *)
Definition headerFile (iconv : nat -> list Z -> iconvResult) (junk fontName : list Z) (ascii : bool) (t : list glyphData)
    (first last height : Z) : res (list Z) :=
  do h <- openHex fontName [];
  do h <- putHexAll (concat (map snd t)) h;
  do f <- closeHex h;
  do g <- putGlyphs iconv junk (map fst t) (openGlyphs fontName ascii f);
  do f <- closeGlyphs g;
  do s <- fontStruct fontName first last height junk;
  Ok (f ++ s).
