From Flocq Require Import IEEE754.Bits.
From Verif Require Import Base M_Endian S_Endian.

Lemma le_val_bound l : bytes l -> 0 <= le_val l < 256 ^ zlen l.
Proof.
  induction 1 as [|b l Hb Hl IH]; [cbn; lia|].
  rewrite zlen_cons. replace (1 + zlen l) with (Z.succ (zlen l)) by lia.
  rewrite Z.pow_succ_r by apply zlen_nonneg. cbn [le_val]. unfold is_byte in Hb. lia.
Qed.

(** field extraction by mask and shift, as arithmetic *)
Lemma land_field x k n : 0 <= k -> 0 <= n -> 0 <= x ->
  Z.land x (Z.shiftl (Z.ones n) k) = (x / 2 ^ k) mod 2 ^ n * 2 ^ k.
Proof.
  intros Hk Hn Hx. rewrite <- Z.shiftr_div_pow2, <- Z.shiftl_mul_pow2 by lia.
  rewrite <- Z.land_ones by lia. apply Z.bits_inj'. intros i Hi.
  rewrite Z.land_spec, !Z.shiftl_spec by lia.
  destruct (Z.le_gt_cases k i) as [Hki|Hki].
  - rewrite Z.land_spec, Z.shiftr_spec by lia. replace (i - k + k) with i by lia. reflexivity.
  - rewrite !(Z.testbit_neg_r _ (i - k)) by lia. apply andb_false_r.
Qed.

Lemma testbit_high a n i : 0 <= a < 2 ^ n -> 0 <= n <= i -> Z.testbit a i = false.
Proof.
  intros Ha Hi. destruct (Z.eq_dec a 0) as [->|Hne]; [apply Z.bits_0|].
  apply Z.bits_above_log2; [lia|]. apply Z.log2_lt_pow2; [lia|].
  apply Z.lt_le_trans with (2 ^ n); [lia|]. apply Z.pow_le_mono_r; lia.
Qed.
(** disjoint or is addition *)
Lemma lor_add a b n : 0 <= n -> 0 <= a < 2 ^ n -> 0 <= b -> b mod 2 ^ n = 0 -> Z.lor a b = a + b.
Proof.
  intros Hn Ha Hb Hm. assert (Hb' : b = Z.shiftl (b / 2 ^ n) n).
  { rewrite Z.shiftl_mul_pow2 by lia. pose proof (Z.div_mod b (2 ^ n)). lia. }
  assert (Hd : Z.land a b = 0).
  { apply Z.bits_inj'; intros i Hi. rewrite Z.land_spec, Z.bits_0, Hb', Z.shiftl_spec by lia.
    destruct (Z.lt_ge_cases i n).
    - rewrite (Z.testbit_neg_r _ (i - n)) by lia. apply andb_false_r.
    - rewrite (testbit_high a n i) by lia. reflexivity. }
  rewrite <- Z.lxor_lor by assumption. symmetry. apply Z.add_nocarry_lxor. assumption.
Qed.
Lemma lor_add' a b n : 0 <= n -> 0 <= b < 2 ^ n -> 0 <= a -> a mod 2 ^ n = 0 -> Z.lor a b = a + b.
Proof. intros. rewrite Z.lor_comm, Z.add_comm. apply lor_add with n; assumption. Qed.

Ltac Zify.zify_post_hook ::= Z.div_mod_to_equations.

Lemma ce16 a b : is_byte a -> is_byte b -> changeEndianess16 (a + 256 * b) = b + 256 * a.
Proof.
  unfold is_byte. intros Ha Hb. unfold changeEndianess16, u16.
  change 0xFF00 with (Z.shiftl (Z.ones 8) 8). change 0x00FF with (Z.shiftl (Z.ones 8) 0).
  rewrite !land_field by lia. rewrite !Z.shiftr_div_pow2, !Z.shiftl_mul_pow2 by lia.
  change (2 ^ 8) with 256. change (2 ^ 0) with 1.
  rewrite (lor_add _ _ 8) by lia. lia.
Qed.

Lemma ce32 a b c d : is_byte a -> is_byte b -> is_byte c -> is_byte d ->
  changeEndianess32 (a + 256 * (b + 256 * (c + 256 * d))) = d + 256 * (c + 256 * (b + 256 * a)).
Proof.
  unfold is_byte. intros Ha Hb Hc Hd. unfold changeEndianess32, u32.
  change 0xff000000 with (Z.shiftl (Z.ones 8) 24). change 0x00FF0000 with (Z.shiftl (Z.ones 8) 16).
  change 0x0000FF00 with (Z.shiftl (Z.ones 8) 8). change 0xFF with (Z.shiftl (Z.ones 8) 0).
  rewrite !land_field by lia. rewrite !Z.shiftr_div_pow2, !Z.shiftl_mul_pow2 by lia.
  change (2 ^ 24) with 16777216. change (2 ^ 16) with 65536. change (2 ^ 8) with 256. change (2 ^ 0) with 1.
  set (x := a + 256 * (b + 256 * (c + 256 * d))).
  replace ((x / 16777216) mod 256) with d by (subst x; lia).
  replace ((x / 65536) mod 256) with c by (subst x; lia).
  replace ((x / 256) mod 256) with b by (subst x; lia).
  replace ((x / 1) mod 256) with a by (subst x; lia).
  rewrite (lor_add (d * 16777216 / 16777216) _ 8) by lia.
  rewrite (lor_add _ (b * 256 * 256) 16) by lia.
  rewrite (lor_add _ (a * 1 * 16777216) 24) by lia. lia.
Qed.

Lemma ce16x2 a b c d : is_byte a -> is_byte b -> is_byte c -> is_byte d ->
  changeEndianess16x2 (a + 256 * (b + 256 * (c + 256 * d))) = b + 256 * (a + 256 * (d + 256 * c)).
Proof.
  unfold is_byte. intros Ha Hb Hc Hd. unfold changeEndianess16x2, u32.
  change 0xff000000 with (Z.shiftl (Z.ones 8) 24). change 0x00FF0000 with (Z.shiftl (Z.ones 8) 16).
  change 0x0000FF00 with (Z.shiftl (Z.ones 8) 8). change 0xFF with (Z.shiftl (Z.ones 8) 0).
  rewrite !land_field by lia. rewrite !Z.shiftr_div_pow2, !Z.shiftl_mul_pow2 by lia.
  change (2 ^ 24) with 16777216. change (2 ^ 16) with 65536. change (2 ^ 8) with 256. change (2 ^ 0) with 1.
  set (x := a + 256 * (b + 256 * (c + 256 * d))).
  replace ((x / 16777216) mod 256) with d by (subst x; lia).
  replace ((x / 65536) mod 256) with c by (subst x; lia).
  replace ((x / 256) mod 256) with b by (subst x; lia).
  replace ((x / 1) mod 256) with a by (subst x; lia).
  rewrite (Z.mod_small (b * 256 * 256)) by lia. rewrite (Z.mod_small (a * 1 * 16777216)) by lia.
  rewrite (lor_add (d * 16777216 / 16777216) _ 8) by lia.
  rewrite (lor_add _ (b * 256 * 256) 16) by lia.
  rewrite (lor_add _ (a * 1 * 16777216) 24) by lia. cbv zeta.
  match goal with |- Z.lor (?i / 65536) _ = _ =>
    replace i with (d + 256 * (c + 256 * (b + 256 * a))) by lia end.
  rewrite (lor_add _ _ 16) by lia. lia.
Qed.

(** every word is the value of its bytes *)
Lemma word16_bytes x : 0 <= x < 65536 -> exists a b, is_byte a /\ is_byte b /\ x = a + 256 * b.
Proof. intros. exists (x mod 256), (x / 256). unfold is_byte. lia. Qed.
Lemma word32_bytes x : 0 <= x < 4294967296 ->
  exists a b c d, is_byte a /\ is_byte b /\ is_byte c /\ is_byte d /\ x = a + 256 * (b + 256 * (c + 256 * d)).
Proof.
  intros. exists (x mod 256), ((x / 256) mod 256), ((x / 65536) mod 256), (x / 16777216). unfold is_byte. lia.
Qed.

Lemma ce16_reverse l : bytes l -> zlen l = 2 -> changeEndianess16 (le_val l) = le_val (rev l).
Proof.
  intros Hl Hn. destruct l as [|a [|b [|]]]; unfold zlen in Hn; cbn [length] in Hn; try lia.
  inversion_clear Hl as [|? ? Ha H0]. inversion_clear H0 as [|? ? Hb _].
  pose proof (ce16 a b Ha Hb). cbn [le_val rev app]. replace (a + 256 * (b + 0)) with (a + 256 * b) by lia. rewrite ?Z.add_0_r in *. lia.
Qed.
Lemma ce32_reverse l : bytes l -> zlen l = 4 -> changeEndianess32 (le_val l) = le_val (rev l).
Proof.
  intros Hl Hn. destruct l as [|a [|b [|c [|d [|]]]]]; unfold zlen in Hn; cbn [length] in Hn; try lia.
  inversion_clear Hl as [|? ? Ha H0]. inversion_clear H0 as [|? ? Hb H1]. inversion_clear H1 as [|? ? Hc H2].
  inversion_clear H2 as [|? ? Hd _].
  pose proof (ce32 a b c d Ha Hb Hc Hd). cbn [le_val rev app]. rewrite ?Z.add_0_r. assumption.
Qed.
Lemma ce16_invol x : 0 <= x < 65536 ->
  0 <= changeEndianess16 x < 65536 /\ changeEndianess16 (changeEndianess16 x) = x.
Proof.
  intros Hx. destruct (word16_bytes x Hx) as (a & b & Ha & Hb & ->).
  rewrite !ce16 by assumption. unfold is_byte in *. lia.
Qed.
Lemma ce32_invol x : 0 <= x < 4294967296 ->
  0 <= changeEndianess32 x < 4294967296 /\ changeEndianess32 (changeEndianess32 x) = x.
Proof.
  intros Hx. destruct (word32_bytes x Hx) as (a & b & c & d & Ha & Hb & Hc & Hd & ->).
  rewrite !ce32 by assumption. unfold is_byte in *. lia.
Qed.
Lemma ce16x2_halves x : 0 <= x < 4294967296 ->
  changeEndianess16x2 x = changeEndianess16 (x mod 65536) + 65536 * changeEndianess16 (x / 65536) /\
  0 <= changeEndianess16x2 x < 4294967296 /\ changeEndianess16x2 (changeEndianess16x2 x) = x.
Proof.
  intros Hx. destruct (word32_bytes x Hx) as (a & b & c & d & Ha & Hb & Hc & Hd & ->).
  rewrite !ce16x2 by assumption.
  replace ((a + 256 * (b + 256 * (c + 256 * d))) mod 65536) with (a + 256 * b) by (unfold is_byte in *; lia).
  replace ((a + 256 * (b + 256 * (c + 256 * d))) / 65536) with (c + 256 * d) by (unfold is_byte in *; lia).
  rewrite !ce16 by assumption. unfold is_byte in *. lia.
Qed.
Lemma ce16x2_bytes a b c d : bytes [a; b; c; d] ->
  changeEndianess16x2 (le_val [a; b; c; d]) = le_val [b; a; d; c].
Proof.
  intros H. inversion_clear H as [|? ? Ha H0]. inversion_clear H0 as [|? ? Hb H1].
  inversion_clear H1 as [|? ? Hc H2]. inversion_clear H2 as [|? ? Hd _].
  pose proof (ce16x2 a b c d Ha Hb Hc Hd). cbn [le_val rev app]. rewrite ?Z.add_0_r. assumption.
Qed.

Lemma to_float_roundtrip f : changeEndianessToFloat (changeEndianess32 (bits_of_b32 f)) = f.
Proof.
  unfold changeEndianessToFloat.
  assert (H : 0 <= bits_of_b32 f < 4294967296) by (exact (bits_of_binary_float_range 23 8 eq_refl eq_refl f)).
  rewrite (proj2 (ce32_invol _ H)). exact (binary_float_of_bits_of_binary_float 23 8 eq_refl eq_refl eq_refl f).
Qed.
Lemma to_float_bits l : bytes l -> zlen l = 4 ->
  bits_of_b32 (changeEndianessToFloat (le_val l)) = le_val (rev l).
Proof.
  intros Hb Hl. unfold changeEndianessToFloat. rewrite ce32_reverse by assumption.
  apply (bits_of_binary_float_of_bits 23 8 eq_refl eq_refl eq_refl).
  assert (H : bytes (rev l)).
  { unfold bytes in *. apply Forall_rev. assumption. }
  pose proof (le_val_bound _ H) as B. rewrite zlen_rev, Hl in B. exact B.
Qed.
Lemma all_words32 x : 0 <= x < 4294967296 -> exists l, bytes l /\ zlen l = 4 /\ x = le_val l.
Proof.
  intros Hx. destruct (word32_bytes x Hx) as (a & b & c & d & Ha & Hb & Hc & Hd & ->).
  exists [a; b; c; d]. split; [unfold bytes; auto 6|]. split; [reflexivity|]. cbn [le_val]. lia.
Qed.
