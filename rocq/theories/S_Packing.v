(** Specification vocabulary for the font converter. *)
From Verif Require Import Base S_Graphics S_Font M_Font M_Packing.

(** bit number [k] of a bit sequence, zero beyond its end *)
Definition bit_at (l : list bool) (k : Z) : bool := nth (Z.to_nat k) l false.
(** the bits of a byte, most significant first *)
Definition byte_bits (b : Z) : list bool :=
  [Z.testbit b 7; Z.testbit b 6; Z.testbit b 5; Z.testbit b 4; Z.testbit b 3; Z.testbit b 2; Z.testbit b 1; Z.testbit b 0].
(** [out] is the bit sequence [l] packed most significant bit first and padded with zero bits *)
Definition packed (l : list bool) (out : list Z) : Prop :=
  bytes out /\ zlen out = (zlen l + 7) / 8 /\ forall k, 0 <= k -> img_bit out k = bit_at l k.
(** the bits an operation adds (flush: none) *)
Definition op_bits (o : bitOp) : list bool :=
  match o with PutBit b => [b] | PutByte b => byte_bits b | FlushBits => [] end.
Definition byte_op (o : bitOp) : Prop := match o with PutByte b => is_byte b | _ => True end.

(** pixel (x,y) of a rendered character *)
Definition rpixel (r : rendered) (x y : Z) : bool := Z.testbit (nthZ (rbuf r) (y * rpitch r + x / 8)) (7 - x mod 8).
(** a monochrome bitmap as FreeType delivers it *)
Definition delivered (r : rendered) : Prop :=
  0 <= rwidth r /\ 0 <= rrows r /\ rwidth r <= 8 * rpitch r /\ rrows r * rpitch r <= zlen (rbuf r) /\
  rrows r * rpitch r <= 4294967296 /\ bytes (rbuf r).
(** ... and not too large for a glyph descriptor *)
Definition rendered_ok (r : rendered) : Prop :=
  0 <= rwidth r < 256 /\ 0 <= rrows r < 256 /\ rwidth r <= 8 * rpitch r /\ rpitch r <= 1000000 /\
  rrows r * rpitch r <= zlen (rbuf r) /\ bytes (rbuf r) /\
  -128 <= rleft r < 128 /\ -128 <= 1 - rtop r < 128.
(** bytes the data of the character takes *)
Definition rsize (r : rendered) : Z := (rwidth r * rrows r + 7) / 8.
Fixpoint total (l : list Z) : Z := match l with [] => 0 | x :: l => x + total l end.

(** an iconv for a single-byte encoding: every single byte is converted to the UCS-4 code [u c] *)
Definition single_byte (iconv : nat -> list Z -> iconvResult) (u : Z -> Z) : Prop :=
  forall n c, 0 <= c < 256 -> exists a b d e, iconv n [c] = Converted [a; b; d; e] /\
    u c = a + 256 * b + 65536 * d + 16777216 * e.

(** the bytes an EncodingConverter keeps in front of the next symbol *)
Definition pending (e : encoder) : list Z := firstn (Z.to_nat (inSize e)) (ebuf e).
Definition encoder_ok (e : encoder) : Prop := zlen (ebuf e) = 4 /\ 0 <= inSize e <= 2.

(** what the converter should store for a rendered character: its metrics and its pixels row by row *)
Definition holds (r : rendered) (d : glyphData) : Prop :=
  gw (fst d) = rwidth r /\ gh (fst d) = rrows r /\ gshift (fst d) = u8 (radvance r / 65536) /\
  gox (fst d) = rleft r /\ goy (fst d) = 1 - rtop r /\ goff (fst d) = rsize r /\
  bytes (snd d) /\ zlen (snd d) = rsize r /\
  forall i j, 0 <= i < rwidth r -> 0 <= j < rrows r -> img_bit (snd d) (j * rwidth r + i) = rpixel r i j.

(** [v], stored in a byte, is read as an int8_t [b] *)
Definition as_int8 (v b : Z) : Prop := -128 <= b < 128 /\ exists k, v = b + 256 * k.

(** reading a packed little-endian descriptor *)
Definition read_glyph (l : list Z) : glyph :=
  mkGlyph (nthZ l 0 + 256 * nthZ l 1) (nthZ l 2) (nthZ l 3) (nthZ l 4) (s8 (nthZ l 5)) (s8 (nthZ l 6)).
