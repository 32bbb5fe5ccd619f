(** tests/EndianConversionTest.cpp evaluated on the model (a check of the model, not a proof). *)
From Flocq Require Import IEEE754.Bits.
From Verif Require Import Base M_Endian.

(** EndianConversionTest.cpp:6-16 *)
Example UInt16Conversion : changeEndianess16 0xABCD = 0xCDAB /\ changeEndianess16 0x1234 = 0x3412.
Proof. split; reflexivity. Qed.
Example UInt32Conversion : changeEndianess32 0xABCDEF12 = 0x12EFCDAB /\ changeEndianess32 0x12345678 = 0x78563412.
Proof. split; reflexivity. Qed.
(** EndianConversionTest.cpp:18-29; 0x212792A2 and 0xFBA9DADA are the binary32 patterns of 5.677587e-19 and
    -1.763874e+36 rounded to nearest, computed outside Coq: the conversion of decimal literals is not modelled *)
Example FloatConversion :
  changeEndianessToFloat (changeEndianess32 0x212792A2) = b32_of_bits 0x212792A2 /\
  changeEndianessToFloat (changeEndianess32 0xFBA9DADA) = b32_of_bits 0xFBA9DADA.
Proof. split; reflexivity. Qed.
(** EndianConversionTest.cpp:31-40 *)
Example Conversion16x2 : changeEndianess16x2 0xABCDEF12 = 0xCDAB12EF /\ changeEndianess16x2 0x12345678 = 0x34127856.
Proof. split; reflexivity. Qed.
