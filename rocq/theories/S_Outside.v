(** Specification vocabulary for pixels outside a frame buffer (C22). *)
From Verif Require Import Base M_FrameBuffer.

(** The pixel the coordinates (x, y) reach in a frame buffer of depth [fd f]; pixels are numbered row by row.
    It is the pixel with number y * width + x, inside or not.  Two things differ before the image:
    a negative x must be at the beginning of a byte (otherwise the bit is shifted by a negative count), and since
    the division by 8 rounds towards zero the pixels of the byte before the image reach its first byte. *)
Definition lands (f : fb) (x y q : Z) : Prop :=
  let n := y * getWidth f + x in
  INT_MIN <= y * getWidth f <= INT_MAX /\ 0 <= q < getWidth f * getHeight f /\
  (x < 0 -> (fd f = 1 -> x mod 8 = 0) /\ (fd f = 4 -> x mod 2 = 0)) /\
  (q = n \/ n < 0 < q /\ (fd f = 1 /\ q = n + 8 \/ fd f = 4 /\ q = n + 2)).
