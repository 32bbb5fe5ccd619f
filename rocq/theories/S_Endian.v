(** Byte sequences of machine words. *)
From Verif Require Import Base.

(** little-endian value of a byte list *)
Fixpoint le_val (l : list Z) : Z :=
  match l with [] => 0 | b :: l' => b + 256 * le_val l' end.
