(** The PBM picture files of the tests: writing, reading and comparing them
    (tests/PBMHelper.h, tests/PBMHelper.cpp).
    A file is the list of its bytes.  Simplifications: opening a file always succeeds and every byte
    written reaches it (PBMHelper.cpp:12-16, 82-86, 116-120 and the stream's write errors are left
    out); the text mode of PBMHelper.cpp:82 writes the byte 10 for the end of a line, as POSIX systems
    do; the streams use the C locale. *)
From Verif Require Import Base M_BufferedOut.

(** ** The C++ input stream as far as PBMHelper.cpp:12-76 uses it: the bytes not read yet, and the
    end-of-file and failure bits.  [good] is [std::ios::good]. *)
Record istream := mkIs { isRest : list Z; isEof : bool; isFail : bool }.
Definition isGood (s : istream) : bool := negb (isEof s) && negb (isFail s).
Definition openFile (file : list Z) : istream := mkIs file false false.

(** [std::isspace] in the C locale: what formatted input skips (PBMHelper.cpp:20). *)
Definition isSpace (c : Z) : bool := (c =? 32) || ((9 <=? c) && (c <=? 13)).
Fixpoint skipSpace (t : list Z) : list Z :=
  match t with
  | c :: t' => if isSpace c then skipSpace t' else t
  | [] => []
  end.
Fixpoint span (f : Z -> bool) (t : list Z) : list Z * list Z :=
  match t with
  | c :: t' => if f c then let '(a, b) := span f t' in (c :: a, b) else ([], t)
  | [] => ([], [])
  end.
Definition atEnd (t : list Z) : bool := match t with [] => true | _ => false end.

(** [file >> magicNumber] (PBMHelper.cpp:20): a stream that is not good fails and leaves the string
    empty; running out of bytes in the white space sets both bits; running out of bytes in the word
    sets the end-of-file bit. *)
Definition readWord (s : istream) : list Z * istream :=
  if negb (isGood s) then ([], mkIs (isRest s) (isEof s) true)
  else match skipSpace (isRest s) with
       | [] => ([], mkIs [] true true)
       | t => let '(w, r) := span (fun c => negb (isSpace c)) t in (w, mkIs r (atEnd r) false)
       end.

(** [file >> width], [file >> height] (PBMHelper.cpp:20): an optional sign and decimal digits.
    No digit: the value 0 and failure; a value outside [int]: the nearest [int] and failure; a
    stream that is not good: failure, and the variable keeps its indeterminate value, for which the
    model has 0 (nothing reads it, as PBMHelper.cpp:28-31 returns first). *)
Definition isDigit (c : Z) : bool := (48 <=? c) && (c <=? 57).
Definition digitsValue (ds : list Z) : Z := fold_left (fun a c => a * 10 + (c - 48)) ds 0.
Definition readInt (s : istream) : Z * istream :=
  if negb (isGood s) then (0, mkIs (isRest s) (isEof s) true)
  else match skipSpace (isRest s) with
       | [] => (0, mkIs [] true true)
       | c :: t =>
           let '(neg, t1) := if c =? 45 then (true, t) else if c =? 43 then (false, t) else (false, c :: t) in
           let '(ds, r) := span isDigit t1 in
           if atEnd ds then (0, mkIs r (atEnd r) true)
           else let v := if neg then - digitsValue ds else digitsValue ds in
                if in_int v then (v, mkIs r (atEnd r) false)
                else (if neg then INT_MIN else INT_MAX, mkIs r (atEnd r) true)
       end.

(** [file.getline(nullptr, 0)] (PBMHelper.cpp:28): no byte may be stored, so only an end of line
    directly ahead is taken without failure. *)
Definition getlineNone (s : istream) : istream :=
  if negb (isGood s) then mkIs (isRest s) (isEof s) true
  else match isRest s with
       | [] => mkIs [] true true
       | c :: t => if c =? 10 then mkIs t false false else mkIs (c :: t) false true
       end.

(** [while (std::getline(file, asciiData))] (PBMHelper.cpp:54): the lines of the bytes left.  Bytes
    after the last end of line are a line of their own; without any, the last call fails. *)
Fixpoint lines (cur t : list Z) : list (list Z) :=
  match t with
  | [] => if atEnd cur then [] else [cur]
  | c :: t' => if c =? 10 then cur :: lines [] t' else lines (cur ++ [c]) t'
  end.

(** The loop over the characters of one line (PBMHelper.cpp:62-73).  [imageData[dataIndex / 8]]
    outside the vector is undefined.  The [break] leaves this loop only. *)
Fixpoint putChars (dataSize : Z) (line img : list Z) (dataIndex : Z) : res (list Z * Z) :=
  match line with
  | [] => Ok (img, dataIndex)
  | c :: t =>
      do '(img', i') <- (if (c =? 48) || (c =? 49)
                         then do v <- rd img (dataIndex / 8);
                              do img1 <- wr img (dataIndex / 8)
                                            (u8 (Z.lor v (Z.shiftl (c - 48) (7 - dataIndex mod 8))));
                              do i1 <- chk (dataIndex + 1);
                              Ok (img1, i1)
                         else Ok (img, dataIndex));
      if dataSize * 8 <=? i' then Ok (img', i') else putChars dataSize t img' i'
  end.
(** The loop over the lines (PBMHelper.cpp:54-74); an empty line and one that begins with '#' are
    skipped (56-59). *)
Fixpoint putLines (dataSize : Z) (ls : list (list Z)) (img : list Z) (dataIndex : Z) : res (list Z * Z) :=
  match ls with
  | [] => Ok (img, dataIndex)
  | l :: ls' =>
      if atEnd l || (nthZ l 0 =? 35) then putLines dataSize ls' img dataIndex
      else do '(img', i') <- putChars dataSize l img dataIndex; putLines dataSize ls' img' i'
  end.

(** [file.read(imageData.data(), imageData.size())] (PBMHelper.cpp:46-47) into a vector of zeros
    (42): what the file is short of stays zero. *)
Definition readBinary (dataSize : Z) (t : list Z) : list Z :=
  blit (repeat 0 (Z.to_nat dataSize)) 0 (slice t 0 dataSize).

(** [readPBM] (PBMHelper.cpp:10-78); [None] is [std::nullopt].  [width * height + 7] is an [int]
    expression (35). *)
Definition magicP1 : list Z := [80; 49].
Definition magicP4 : list Z := [80; 52].
Definition readPBM (file : list Z) : res (option (Z * Z * list Z)) :=
  let '(magic, s1) := readWord (openFile file) in
  let '(width, s2) := readInt s1 in
  let '(height, s3) := readInt s2 in
  if negb (eqbl magic magicP4) && negb (eqbl magic magicP1) then Ok None
  else let s4 := getlineNone s3 in
       if negb (isGood s4) then Ok None
       else do p <- chk (width * height);
            do q <- chk (p + 7);
            let dataSize := Z.quot q 8 in
            if dataSize <=? 0 then Ok None
            else if eqbl magic magicP4 then Ok (Some (width, height, readBinary dataSize (isRest s4)))
                 else do '(img, _) <- putLines dataSize (lines [] (isRest s4))
                                               (repeat 0 (Z.to_nat dataSize)) 0;
                      Ok (Some (width, height, img)).

(** The eight characters of one byte, each followed by a blank (PBMHelper.cpp:103-106). *)
Definition byteText (b : Z) : list Z :=
  flat_map (fun bit => [if Z.land (Z.shiftr b bit) 1 =? 0 then 48 else 49; 32]) [7; 6; 5; 4; 3; 2; 1; 0].

(** The inner loop of [writePBM] (PBMHelper.cpp:96-107): [n] bytes of a row from index [i] on; the
    Boolean is false for the early [return false] (98-101), after which nothing more is written. *)
Fixpoint writeRow (n : nat) (data : list Z) (i : Z) : list Z * Z * bool :=
  match n with
  | O => ([], i, true)
  | S m => if zlen data <=? i then ([], i, false)
           else let '(t, j, ok) := writeRow m data (i + 1) in (byteText (nthZ data i) ++ t, j, ok)
  end.
(** The outer loop (PBMHelper.cpp:94-109): [h] rows of [cols] bytes. *)
Fixpoint writeRows (h cols : nat) (data : list Z) (i : Z) : list Z * bool :=
  match h with
  | O => ([], true)
  | S k => let '(t, j, ok) := writeRow cols data i in
           if ok then let '(t', ok') := writeRows k cols data j in (t ++ 10 :: t', ok')
           else (t, false)
  end.

(** [file << width << " " << height << "\n"] after the magic number (PBMHelper.cpp:89-90, 123-124). *)
Definition pbmHeader (magic : list Z) (width height : Z) : list Z :=
  magic ++ [10] ++ decimal width ++ [32] ++ decimal height ++ [10].

(** [writePBM] (PBMHelper.cpp:80-112): the bytes of the file and the returned value.  [width + 7] is
    an [int] expression, evaluated only if there is a row (96). *)
Definition writePBM (data : list Z) (width height : Z) : res (list Z * bool) :=
  if height <=? 0 then Ok (pbmHeader magicP1 width height, true)
  else do c <- chk (width + 7);
       let '(t, ok) := writeRows (Z.to_nat height) (Z.to_nat (Z.quot c 8)) data 0 in
       Ok (pbmHeader magicP1 width height ++ t, ok).

(** [writePBMBinary] (PBMHelper.cpp:114-133); it always returns true.  A negative number of bytes
    breaks the contract of [ostream::write] (130). *)
Definition writePBMBinary (data : list Z) (width height : Z) : res (list Z * bool) :=
  do p <- chk (width * height);
  do q <- chk (p + 7);
  let dataSize := Z.min (Z.quot q 8) (zlen data) in
  guard (0 <=? dataSize) (Ok (pbmHeader magicP4 width height ++ slice data 0 dataSize, true)).

(** [comparePBM] (PBMHelper.cpp:135-159). *)
Definition comparePBM (file data : list Z) (width height : Z) : res bool :=
  do r <- readPBM file;
  match r with
  | None => Ok false
  | Some (w, h, img) =>
      if negb (zlen img =? zlen data) || negb (w =? width) || negb (h =? height) then Ok false
      else Ok (forallb (fun i => nthZ img (Z.of_nat i) =? nthZ data (Z.of_nat i)) (seq 0 (length img)))
  end.
