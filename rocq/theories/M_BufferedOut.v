(** Model of BufferedOut.h / BufferedOut.cpp (text formatting into a caller-supplied buffer).

    Characters are represented by their byte value 0..255. *)
From Flocq Require Import IEEE754.Binary IEEE754.Bits.
From Verif Require Import Base.

(** BufferedOut.h:13, 91-94.  [mem] is the whole buffer [dataBuf]; [pos] is the write pointer as an
    offset from [dataBuf.begin()]. *)
Record bo : Type := Bo { mem : list Z; pos : Z; prec : Z; wid : Z; fillc : Z }.

(** BufferedOut.h:71-77 *)
Definition clear (s : bo) : bo := Bo (mem s) 0 0 0 32.
(** BufferedOut.h:15-19 *)
Definition create (buffer : list Z) : bo := clear (Bo buffer 0 0 0 0).

(** BufferedOut.h:65-66 *)
Definition size (s : bo) : Z := pos s.
Definition capacity (s : bo) : Z := zlen (mem s).
(** BufferedOut.h:63 *)
Definition asStringView (s : bo) : list Z := slice (mem s) 0 (size s).
(** BufferedOut.h:61-62: the length is cast to uint16_t *)
Definition data (s : bo) : list Z := slice (mem s) 0 (u16 (size s)).

(** BufferedOut.h:79-85 *)
Definition addChar (c : Z) (s : bo) : res bo :=
  if pos s =? zlen (mem s) then Ok s
  else do m <- wr (mem s) (pos s) c; Ok (Bo m (pos s + 1) (prec s) (wid s) (fillc s)).

(** BufferedOut.cpp:29-36.  [str] is the memory from the pointer to the end of the array it points
    into; reading past it is UB. *)
Fixpoint append (m : list Z) (dst : Z) (str : list Z) : res (list Z * Z) :=
  match str with
  | [] => UB
  | c :: str' =>
      if negb (c =? 0) && negb (dst =? zlen m)
      then do m' <- wr m dst c; append m' (dst + 1) str'
      else Ok (m, dst)
  end.

(** BufferedOut.cpp:59-63 *)
Definition insCStr (str : list Z) (s : bo) : res bo :=
  do ' (m, p) <- append (mem s) (pos s) str; Ok (Bo m p (prec s) (wid s) (fillc s)).

(** BufferedOut.cpp:164-170.  [size_t] differences are exact because [pos <= end]. *)
Definition insStr (str : list Z) (s : bo) : res bo :=
  let n := Z.min (zlen str) (zlen (mem s) - pos s) in
  do d <- rd_slice str 0 n;
  do m <- wr_slice (mem s) (pos s) d;
  Ok (Bo m (pos s + n) (prec s) (wid s) (fillc s)).

(** Decimal digits of [n >= 0], most significant first (the digit loop behind [std::to_chars]). *)
Fixpoint digits (fuel : nat) (n : Z) (acc : list Z) : list Z :=
  match fuel with
  | O => acc
  | S f => let acc' := (48 + n mod 10) :: acc in
           if n <? 10 then acc' else digits f (n / 10) acc'
  end.
Definition decimal (n : Z) : list Z :=
  let ds := digits (S (Z.to_nat (Z.log2 (Z.abs n)))) (Z.abs n) [] in
  if n <? 0 then 45 :: ds else ds.

(** [std::to_chars(first, last, n)] with [last] = end of the buffer [m] (BufferedOut.cpp:12, 68, 78,
    88, 98, 108, 118): writes the decimal text when it fits and returns its end; otherwise returns
    [last] and an error, and the range [first, last) has unspecified contents: any list [junk] may
    have been written into it.  The Boolean is [ec == std::errc{}]. *)
Definition to_chars (m : list Z) (first n : Z) (junk : list Z) : res (list Z * Z * bool) :=
  let t := decimal n in
  if first + zlen t <=? zlen m
  then do m' <- wr_slice m first t; Ok (m', first + zlen t, true)
  else do m' <- wr_slice m first (firstn (Z.to_nat (zlen m - first)) junk); Ok (m', zlen m, false).

(** BufferedOut.cpp:43-57.  The padding loop (lines 51-54) is one block write. *)
Definition addPadding (p : Z) (s : bo) : res bo :=
  let realSize := p - pos s in
  if realSize <? wid s
  then do d <- rd_slice (mem s) (pos s) realSize;
       do m1 <- wr_slice (mem s) (pos s + wid s - realSize) d;
       do m2 <- wr_slice m1 (pos s) (repeat (fillc s) (Z.to_nat (wid s - realSize)));
       Ok (Bo m2 (pos s + wid s) (prec s) (wid s) (fillc s))
  else Ok (Bo (mem s) (pos s + wid s) (prec s) (wid s) (fillc s)).

(** BufferedOut.cpp:126-137 *)
Definition adjustPos (p : Z) (s : bo) : res bo :=
  if 0 <? wid s
  then do s' <- addPadding p s; Ok (Bo (mem s') (pos s') (prec s') 0 (fillc s'))
  else Ok (Bo (mem s) p (prec s) (wid s) (fillc s)).

(** BufferedOut.cpp:66-124: the six integer overloads have the same body; [n] is the value. *)
Definition insInt (n : Z) (junk : list Z) (s : bo) : res bo :=
  do ' (m, p, ok) <- to_chars (mem s) (pos s) n junk;
  let s1 := Bo m (pos s) (prec s) (wid s) (fillc s) in
  if ok : bool then adjustPos p s1 else Ok s1.

(** BufferedOut.cpp:158 *)
Definition hexDigits : list Z := [48;49;50;51;52;53;54;55;56;57;65;66;67;68;69;70].
(** BufferedOut.cpp:156-162 *)
Definition insByte (b : Z) (s : bo) : res bo :=
  do h <- rd hexDigits (Z.shiftr (Z.land b 0xF0) 4);
  do m1 <- wr (mem s) (pos s) h;
  do l <- rd hexDigits (Z.land b 0xF);
  do m2 <- wr m1 (pos s + 1) l;
  Ok (Bo m2 (pos s + 2) (prec s) (wid s) (fillc s)).

(** BufferedOut.cpp:149-152 *)
Fixpoint insByteLoop (bs : list Z) (s : bo) : res bo :=
  match bs with
  | [] => Ok s
  | b :: bs' => do s' <- insByte b s; insByteLoop bs' s'
  end.
(** BufferedOut.cpp:145-154 *)
Definition insSpan (span : list Z) (s : bo) : res bo :=
  let availableSize := (zlen (mem s) - pos s) / 2 in
  let size := if zlen span <? availableSize then zlen span else availableSize in
  insByteLoop (firstn (Z.to_nat size) span) s.

(** Insertions whose argument is not a float.  [IInt n junk]: see [to_chars]. *)
Inductive iop : Type :=
| IStr (str : list Z)            (* BufferedOut.h:26 *)
| ICStr (str : list Z)           (* BufferedOut.h:25 *)
| IChar (c : Z)                  (* BufferedOut.h:37-41 *)
| IInt (n : Z) (junk : list Z)   (* BufferedOut.h:27-32 *)
| IByte (b : Z)                  (* BufferedOut.h:34 *)
| ISpan (span : list Z)          (* BufferedOut.h:35 *)
| IPrecision (p : Z)             (* BufferedOut.h:43-47 *)
| IWidth (w : Z)                 (* BufferedOut.h:49-53 *)
| IFill (c : Z).                 (* BufferedOut.h:55-59 *)

Definition istep (o : iop) (s : bo) : res bo :=
  match o with
  | IStr str => insStr str s
  | ICStr str => insCStr str s
  | IChar c => addChar c s
  | IInt n junk => insInt n junk s
  | IByte b => insByte b s
  | ISpan span => insSpan span s
  | IPrecision p => Ok (Bo (mem s) (pos s) p (wid s) (fillc s))
  | IWidth w => Ok (Bo (mem s) (pos s) (prec s) w (fillc s))
  | IFill c => Ok (Bo (mem s) (pos s) (prec s) (wid s) c)
  end.
Fixpoint irun (os : list iop) (s : bo) : res bo :=
  match os with [] => Ok s | o :: os' => do s' <- istep o s; irun os' s' end.

(** ** Floats: IEEE binary32, round to nearest even, every operation rounded to float
    (FLT_EVAL_METHOD = 0). *)

(** conversion [int(v)]: UB for NaN, infinities and values outside the range of [int] *)
Definition f2i (v : binary32) : res Z :=
  if is_finite 24 128 v then chk (Btrunc 24 128 v) else UB.
(** conversion [float(n)] *)
Definition i2f (n : Z) : binary32 :=
  binary_normalize 24 128 eq_refl eq_refl BinarySingleNaN.mode_NE n 0 false.

(** BufferedOut.cpp:17-24.  [room] is [last - pos]; [precision] counts down. *)
Fixpoint fracLoop (room : nat) (m : list Z) (p : Z) (precision : Z) (f : binary32) : res (list Z * Z) :=
  match room with
  | O => Ok (m, p)
  | S room' =>
      if 0 <? precision
      then let f1 := b32_mult BinarySingleNaN.mode_NE f (i2f 10) in
           do n <- f2i f1;
           do c <- chk (48 + n);
           do m' <- wr m p (u8 c);
           let f2 := b32_minus BinarySingleNaN.mode_NE f1 (i2f n) in
           fracLoop room' m' (p + 1) (precision - 1) f2
      else Ok (m, p)
  end.

(** BufferedOut.cpp:9-27 *)
Definition toChars (m : list Z) (first : Z) (v : binary32) (precision : Z) (junk : list Z)
  : res (list Z * Z) :=
  do n <- f2i v;
  do ' (m1, p, ok) <- to_chars m first n junk;
  if (ok : bool) && (0 <? precision) && (p <? zlen m)
  then let f := b32_minus BinarySingleNaN.mode_NE (b32_abs v) (b32_abs (i2f n)) in
       do m2 <- wr m1 p 46;
       fracLoop (Z.to_nat (zlen m - (p + 1))) m2 (p + 1) precision f
  else Ok (m1, p).

(** BufferedOut.cpp:139-143: [floatPrecision] is converted from [int] to [unsigned]. *)
Definition insFloat (v : binary32) (junk : list Z) (s : bo) : res bo :=
  do ' (m, p) <- toChars (mem s) (pos s) v (u32 (prec s)) junk;
  Ok (Bo m p (prec s) (wid s) (fillc s)).

(** All insertions, and [clear()]. *)
Inductive op : Type :=
| OI (o : iop)
| OFloat (v : binary32) (junk : list Z)
| OClear.
Definition step (o : op) (s : bo) : res bo :=
  match o with
  | OI i => istep i s
  | OFloat v junk => insFloat v junk s
  | OClear => Ok (clear s)
  end.
Fixpoint run (os : list op) (s : bo) : res bo :=
  match os with [] => Ok s | o :: os' => do s' <- step o s; run os' s' end.
