(** Model of EndianConversion.h.  Unsigned operands are non-negative [Z]; results of arithmetic done in
    [uint16_t]/[uint32_t] are reduced with [u16]/[u32]. *)
From Flocq Require Import IEEE754.Bits.
From Verif Require Import Base.

(** EndianConversion.h:8-11.  The operands are promoted to [int]; [(in & 0xFF) << 8] fits. The return
    statement converts to uint16_t. *)
Definition changeEndianess16 (x : Z) : Z :=
  u16 (Z.lor (Z.shiftr (Z.land x 0xFF00) 8) (Z.shiftl (Z.land x 0x00FF) 8)).

(** EndianConversion.h:13-17.  [0xff000000ul] makes the operands [unsigned long] (32 or 64 bits); the
    result is converted to uint32_t, so reducing once at the end is the same for both widths. *)
Definition changeEndianess32 (x : Z) : Z :=
  u32 (Z.lor (Z.lor (Z.lor (Z.shiftr (Z.land x 0xff000000) 24)
                           (Z.shiftr (Z.land x 0x00FF0000) 8))
                    (Z.shiftl (Z.land x 0x0000FF00) 8))
             (Z.shiftl (Z.land x 0xFF) 24)).

(** EndianConversion.h:19-27.  The union read reinterprets the 32-bit pattern as an IEEE single
    ([b32_of_bits] of Flocq).  Reading the inactive union member is type punning that GCC defines; it is
    taken as defined here. *)
Definition changeEndianessToFloat (x : Z) : binary32 := b32_of_bits (changeEndianess32 x).

(** EndianConversion.h:29-34 *)
Definition changeEndianess16x2 (x : Z) : Z :=
  let i := Z.lor (Z.lor (Z.lor (Z.shiftr (Z.land x 0xff000000) 24)
                           (Z.shiftr (Z.land x 0x00FF0000) 8))
                    (u32 (Z.shiftl (Z.land x 0x0000FF00) 8)))
             (u32 (Z.shiftl (Z.land x 0xFF) 24)) in
  Z.lor (Z.shiftr i 16) (u32 (Z.shiftl i 16)).
