(** Property theorems C03, C04. *)
From Flocq Require Import IEEE754.Bits.
From Verif Require Import Base M_Endian S_Endian L_Endian.

Theorem C03_reverse16 : forall l, bytes l -> zlen l = 2 -> changeEndianess16 (le_val l) = le_val (rev l).
Proof. exact ce16_reverse. Qed.
Print Assumptions C03_reverse16.
Theorem C03_reverse32 : forall l, bytes l -> zlen l = 4 -> changeEndianess32 (le_val l) = le_val (rev l).
Proof. exact ce32_reverse. Qed.
Print Assumptions C03_reverse32.
Theorem C03_involution16 : forall x, 0 <= x < 65536 ->
  0 <= changeEndianess16 x < 65536 /\ changeEndianess16 (changeEndianess16 x) = x.
Proof. exact ce16_invol. Qed.
Print Assumptions C03_involution16.
Theorem C03_involution32 : forall x, 0 <= x < 4294967296 ->
  0 <= changeEndianess32 x < 4294967296 /\ changeEndianess32 (changeEndianess32 x) = x.
Proof. exact ce32_invol. Qed.
Print Assumptions C03_involution32.
(** every word has a byte sequence, so the two [reverse] theorems speak about every input *)
Theorem C03_all_words : forall x,
  (0 <= x < 65536 -> exists l, bytes l /\ zlen l = 2 /\ x = le_val l) /\
  (0 <= x < 4294967296 -> exists l, bytes l /\ zlen l = 4 /\ x = le_val l).
Proof.
  intros x. split; [|apply all_words32]. intros H. exists [x mod 256; x / 256].
  split; [unfold bytes, is_byte; repeat (apply Forall_cons; [lia|]); apply Forall_nil|]. split; [reflexivity|]. cbn [le_val]. lia.
Qed.
Print Assumptions C03_all_words.

Example C03_run : changeEndianess16 0x1234 = 0x3412 /\ changeEndianess32 0x12345678 = 0x78563412 /\
  bytes [0x78; 0x56; 0x34; 0x12] /\ le_val [0x78; 0x56; 0x34; 0x12] = 0x12345678.
Proof. repeat split. unfold bytes, is_byte; repeat (apply Forall_cons; [lia|]); apply Forall_nil. Qed.

Theorem C04_halves : forall x, 0 <= x < 4294967296 ->
  changeEndianess16x2 x = changeEndianess16 (x mod 65536) + 65536 * changeEndianess16 (x / 65536) /\
  0 <= changeEndianess16x2 x < 4294967296 /\ changeEndianess16x2 (changeEndianess16x2 x) = x.
Proof. exact ce16x2_halves. Qed.
Print Assumptions C04_halves.
Theorem C04_halves_bytes : forall a b c d, bytes [a; b; c; d] ->
  changeEndianess16x2 (le_val [a; b; c; d]) = le_val [b; a; d; c].
Proof. exact ce16x2_bytes. Qed.
Print Assumptions C04_halves_bytes.
Theorem C04_float_pattern : forall l, bytes l -> zlen l = 4 ->
  bits_of_b32 (changeEndianessToFloat (le_val l)) = le_val (rev l).
Proof. exact to_float_bits. Qed.
Print Assumptions C04_float_pattern.
Theorem C04_float_roundtrip : forall f, changeEndianessToFloat (changeEndianess32 (bits_of_b32 f)) = f.
Proof. exact to_float_roundtrip. Qed.
Print Assumptions C04_float_roundtrip.

Example C04_run : changeEndianess16x2 0x12345678 = 0x34127856.
Proof. reflexivity. Qed.
Example C04_float_run : bits_of_b32 (changeEndianessToFloat 0x0000803F) = 0x3F800000. (* 1.0f *)
Proof. vm_compute. reflexivity. Qed.
