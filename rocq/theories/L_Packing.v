(** Lemmas about bit packing and the converter's tables. *)
From Verif Require Import Base S_Graphics S_Font S_Paint S_Packing M_Geometry M_FrameBuffer M_Canvas M_Font M_Packing L_Geometry L_FrameBuffer L_Canvas L_Circle L_Paint L_Font.
Ltac Zify.zify_post_hook ::= Z.div_mod_to_equations.

(** ** BitStream *)
Lemma bit_at_app a b k : 0 <= k -> bit_at (a ++ b) k = if k <? zlen a then bit_at a k else bit_at b (k - zlen a).
Proof.
  intros Hk. unfold bit_at, zlen. destruct (Z.ltb_spec k (Z.of_nat (length a))).
  - rewrite app_nth1 by lia. reflexivity.
  - rewrite app_nth2 by lia. f_equal. lia.
Qed.
Lemma bit_at_beyond l k : zlen l <= k -> bit_at l k = false.
Proof. intros H. unfold bit_at. apply nth_overflow. unfold zlen in H. lia. Qed.
Lemma byte_bits_at b k : 0 <= k < 8 -> bit_at (byte_bits b) k = Z.testbit b (7 - k).
Proof.
  intros H. assert (k = 0 \/ k = 1 \/ k = 2 \/ k = 3 \/ k = 4 \/ k = 5 \/ k = 6 \/ k = 7) as
    [->|[->|[->|[->|[->|[->|[->| ->]]]]]]] by lia; reflexivity.
Qed.
Lemma byte_high b n : is_byte b -> 8 <= n -> Z.testbit b n = false.
Proof.
  intros Hb Hn. apply Z.bits_above_log2; [apply Hb|]. destruct (Z.eq_dec b 0) as [->|]; [cbn; lia|].
  assert (Z.log2 b < 8); [|lia]. apply Z.log2_lt_pow2; [unfold is_byte in Hb; lia|]. apply Hb.
Qed.
Lemma u8_testbit z n : 0 <= n -> Z.testbit (u8 z) n = if n <? 8 then Z.testbit z n else false.
Proof.
  intros Hn. unfold u8. change 256 with (2 ^ 8). destruct (Z.ltb_spec n 8).
  - apply Z.mod_pow2_bits_low. lia.
  - apply Z.mod_pow2_bits_high. lia.
Qed.
Lemma u8_byte z : is_byte (u8 z).
Proof. unfold is_byte, u8. apply Z.mod_pos_bound. lia. Qed.
Lemma img_bit_nil k : img_bit [] k = false.
Proof. unfold img_bit, nthZ. destruct (Z.to_nat (k / 8)); apply Z.bits_0. Qed.
Lemma img_bit_beyond l k : 8 * zlen l <= k -> img_bit l k = false.
Proof.
  intros H. unfold img_bit, nthZ. rewrite nth_overflow; [apply Z.bits_0|]. unfold zlen in H. lia.
Qed.
Lemma img_bit_app a b k : 0 <= k -> img_bit (a ++ b) k = if k <? 8 * zlen a then img_bit a k else img_bit b (k - 8 * zlen a).
Proof.
  intros Hk. unfold img_bit. rewrite nthZ_app by lia. destruct (Z.ltb_spec k (8 * zlen a)).
  - replace (k / 8 <? zlen a) with true by lia. reflexivity.
  - replace (k / 8 <? zlen a) with false by lia. f_equal; [f_equal; lia|lia].
Qed.
Lemma img_bit_one b k : 0 <= k < 8 -> img_bit [b] k = Z.testbit b (7 - k).
Proof. intros H. unfold img_bit. rewrite Z.div_small, Z.mod_small by lia. reflexivity. Qed.

(** [l] are the bits put since the last flush and [s0] what had been sent before them *)
Record bits_inv (s0 : list Z) (l : list bool) (s : bitStream) : Prop := {
  bi_out : exists out, sent s = s0 ++ out /\ bytes out /\ zlen out = zlen l / 8 /\
             forall k, 0 <= k -> img_bit (out ++ [bbuf s]) k = bit_at l k;
  bi_count : bitCount s = zlen l mod 8;
  bi_buf : is_byte (bbuf s) }.

Lemma bits_inv_new s0 : bits_inv s0 [] (mkBits 0 0 s0).
Proof.
  constructor; [exists []|reflexivity|split; cbn; lia]. split; [rewrite app_nil_r; reflexivity|].
  split; [constructor|]. split; [reflexivity|]. intros k Hk. cbn [app bbuf].
  rewrite bit_at_beyond by (cbn; lia). unfold img_bit, nthZ. destruct (Z.to_nat (k / 8)) as [|[|n]]; apply Z.bits_0.
Qed.

Lemma bits_inv_bit s0 l s b : bits_inv s0 l s -> bits_inv s0 (l ++ [b]) (putBit b s).
Proof.
  intros [[out [Es [Hb [HL HB]]]] Hc Hbuf]. pose proof (zlen_nonneg l) as Hl0.
  set (buffer := if b then u8 (Z.lor (bbuf s) (Z.shiftl 1 (7 - bitCount s))) else bbuf s).
  assert (Hbf : is_byte buffer) by (unfold buffer; destruct b; [apply u8_byte|exact Hbuf]).
  assert (Hbits : forall j, 0 <= j < 8 -> Z.testbit buffer (7 - j) = Z.testbit (bbuf s) (7 - j) || (b && (j =? bitCount s))).
  { intros j Hj. unfold buffer. destruct b; [|cbn [andb]; rewrite orb_false_r; reflexivity].
    rewrite u8_testbit by lia. replace (7 - j <? 8) with true by lia. rewrite Z.lor_spec, Z.shiftl_spec by lia. f_equal.
    cbn [andb]. destruct (Z.eqb_spec j (bitCount s)) as [->|Hne].
    - replace (7 - bitCount s - (7 - bitCount s)) with 0 by lia. reflexivity.
    - destruct (Z.lt_trichotomy (7 - j - (7 - bitCount s)) 0) as [H|[H|H]]; [apply Z.testbit_neg_r; exact H|lia|].
      apply Z.bits_above_log2; [lia|change (Z.log2 1) with 0; lia]. }
  assert (HN : forall k, 0 <= k -> img_bit (out ++ [buffer]) k = bit_at (l ++ [b]) k).
  { intros k Hk. rewrite bit_at_app by lia. specialize (HB k Hk). rewrite img_bit_app in HB |- * by lia.
    destruct (Z.ltb_spec k (8 * zlen out)).
    - replace (k <? zlen l) with true by lia. exact HB.
    - destruct (Z.ltb_spec k (8 * zlen out + 8)).
      + rewrite img_bit_one in HB |- * by lia. rewrite Hbits by lia. rewrite HB, Hc.
        destruct (Z.ltb_spec k (zlen l)).
        * replace (k - 8 * zlen out =? zlen l mod 8) with false by lia. rewrite andb_false_r, orb_false_r. reflexivity.
        * rewrite bit_at_beyond by lia. cbn [orb]. destruct (Z.eqb_spec (k - 8 * zlen out) (zlen l mod 8)).
          -- replace (k - zlen l) with 0 by lia. destruct b; reflexivity.
          -- rewrite andb_false_r. symmetry. apply bit_at_beyond. rewrite zlen_1. lia.
      + rewrite img_bit_beyond by (rewrite zlen_1; lia). replace (k <? zlen l) with false by lia.
        symmetry. apply bit_at_beyond. rewrite zlen_1. lia. }
  unfold putBit. fold buffer. destruct (Z.eqb_spec (bitCount s + 1) 8) as [E|E].
  - constructor; cbn [sent bbuf bitCount].
    + exists (out ++ [buffer]). rewrite Es, app_assoc. split; [reflexivity|]. split; [apply Forall_app; split; [exact Hb|repeat constructor; apply Hbf]|].
      split; [rewrite !zlen_app, !zlen_1; lia|]. intros k Hk. rewrite <- HN by exact Hk. rewrite (img_bit_app (out ++ [buffer])) by exact Hk.
      destruct (Z.ltb_spec k (8 * zlen (out ++ [buffer]))); [reflexivity|]. rewrite (img_bit_beyond (out ++ [buffer])) by lia.
      unfold img_bit, nthZ. destruct (Z.to_nat _) as [|[|n]]; apply Z.bits_0.
    + rewrite zlen_app, zlen_1. lia.
    + split; lia.
  - constructor; cbn [sent bbuf bitCount].
    + exists out. split; [exact Es|]. split; [exact Hb|]. split; [rewrite zlen_app, zlen_1; lia|exact HN].
    + rewrite zlen_app, zlen_1. lia.
    + exact Hbf.
Qed.

Lemma bits_inv_byte s0 l s b : is_byte b -> bits_inv s0 l s -> bits_inv s0 (l ++ byte_bits b) (putByte b s).
Proof.
  intros Hby [[out [Es [Hb [HL HB]]]] Hc Hbuf]. pose proof (zlen_nonneg l) as Hl0.
  assert (H8 : zlen (byte_bits b) = 8) by reflexivity.
  unfold putByte. destruct (Z.eqb_spec (bitCount s) 0) as [E|E].
  - assert (Hz : bbuf s = 0).
    { apply Z.bits_inj'. intros n Hn. rewrite Z.bits_0. destruct (Z_lt_dec n 8) as [Hn8|Hn8]; [|apply byte_high; [exact Hbuf|lia]].
      specialize (HB (zlen l + (7 - n)) ltac:(lia)). rewrite img_bit_app in HB by lia.
      replace (zlen l + (7 - n) <? 8 * zlen out) with false in HB by lia. rewrite img_bit_one in HB by lia.
      rewrite bit_at_beyond in HB by lia. replace (7 - (zlen l + (7 - n) - 8 * zlen out)) with n in HB by lia. exact HB. }
    constructor; cbn [sent bbuf bitCount].
    + exists (out ++ [b]). rewrite Es, app_assoc. split; [reflexivity|]. split; [apply Forall_app; split; [exact Hb|repeat constructor; apply Hby]|].
      split; [rewrite !zlen_app, zlen_1, H8; lia|]. intros k Hk. rewrite bit_at_app by lia.
      rewrite img_bit_app, img_bit_app, zlen_app, zlen_1 by lia. specialize (HB k Hk). rewrite img_bit_app in HB by lia.
      destruct (Z.ltb_spec k (8 * zlen out)).
      * replace (k <? 8 * (zlen out + 1)) with true by lia. replace (k <? zlen l) with true by lia. exact HB.
      * replace (k <? zlen l) with false by lia. destruct (Z.ltb_spec k (8 * (zlen out + 1))).
        -- rewrite img_bit_one, byte_bits_at by lia. f_equal. lia.
        -- rewrite (bit_at_beyond (byte_bits b)) by lia. rewrite Hz. unfold img_bit, nthZ. destruct (Z.to_nat _) as [|[|n]]; apply Z.bits_0.
    + rewrite zlen_app, H8. lia.
    + exact Hbuf.
  - set (o := u8 (Z.lor (bbuf s) (Z.shiftr b (bitCount s)))). set (nb := u8 (Z.shiftl b (8 - bitCount s))).
    assert (Ho : forall j, 0 <= j < 8 -> Z.testbit o (7 - j) = Z.testbit (bbuf s) (7 - j) || Z.testbit b (7 - j + bitCount s)).
    { intros j Hj. unfold o. rewrite u8_testbit by lia. replace (7 - j <? 8) with true by lia. rewrite Z.lor_spec, Z.shiftr_spec by lia. reflexivity. }
    assert (Hn : forall j, 0 <= j < 8 -> Z.testbit nb (7 - j) = Z.testbit b (7 - j - (8 - bitCount s))).
    { intros j Hj. unfold nb. rewrite u8_testbit by lia. replace (7 - j <? 8) with true by lia. rewrite Z.shiftl_spec by lia. reflexivity. }
    constructor; cbn [sent bbuf bitCount].
    + exists (out ++ [o]). rewrite Es, app_assoc. split; [reflexivity|]. split; [apply Forall_app; split; [exact Hb|repeat constructor; apply u8_byte]|].
      split; [rewrite !zlen_app, zlen_1, H8; lia|]. intros k Hk. rewrite bit_at_app by lia.
      rewrite img_bit_app, img_bit_app, zlen_app, zlen_1 by lia. specialize (HB k Hk). rewrite img_bit_app in HB by lia.
      destruct (Z.ltb_spec k (8 * zlen out)).
      * replace (k <? 8 * (zlen out + 1)) with true by lia. replace (k <? zlen l) with true by lia. exact HB.
      * destruct (Z.ltb_spec k (8 * (zlen out + 1))).
        -- rewrite img_bit_one in HB |- * by lia. rewrite Ho by lia. rewrite HB. destruct (Z.ltb_spec k (zlen l)).
           ++ rewrite (byte_high b) by (try assumption; lia). apply orb_false_r.
           ++ rewrite (bit_at_beyond l) by lia. rewrite byte_bits_at by lia. cbn [orb]. f_equal. lia.
        -- replace (k <? zlen l) with false by lia. destruct (Z.ltb_spec k (8 * (zlen out + 2))).
           ++ rewrite img_bit_one by lia. rewrite Hn by lia. destruct (Z_lt_dec (k - zlen l) 8).
              ** rewrite byte_bits_at by lia. f_equal. lia.
              ** rewrite bit_at_beyond by lia. apply Z.testbit_neg_r. lia.
           ++ rewrite img_bit_beyond by (rewrite zlen_1; lia). symmetry. apply bit_at_beyond. lia.
    + rewrite zlen_app, H8. lia.
    + apply u8_byte.
Qed.

Lemma bits_inv_flush s0 l s : bits_inv s0 l s ->
  exists out, packed l out /\ flushBits s = mkBits 0 0 (s0 ++ out).
Proof.
  intros [[out [Es [Hb [HL HB]]]] Hc Hbuf]. pose proof (zlen_nonneg l) as Hl0. unfold flushBits.
  destruct (Z.eqb_spec (bitCount s) 0) as [E|E]; cbn [negb].
  - assert (HB' : forall k, 0 <= k -> img_bit out k = bit_at l k).
    { intros k Hk. specialize (HB k Hk). rewrite img_bit_app in HB by lia. destruct (Z.ltb_spec k (8 * zlen out)); [exact HB|].
      rewrite img_bit_beyond by lia. symmetry. apply bit_at_beyond. lia. }
    assert (Hz : bbuf s = 0).
    { apply Z.bits_inj'. intros n Hn. rewrite Z.bits_0. destruct (Z_lt_dec n 8) as [Hn8|Hn8]; [|apply byte_high; [exact Hbuf|lia]].
      specialize (HB (zlen l + (7 - n)) ltac:(lia)). rewrite img_bit_app in HB by lia.
      replace (zlen l + (7 - n) <? 8 * zlen out) with false in HB by lia. rewrite img_bit_one in HB by lia.
      rewrite bit_at_beyond in HB by lia. replace (7 - (zlen l + (7 - n) - 8 * zlen out)) with n in HB by lia. exact HB. }
    exists out. split; [split; [exact Hb|split; [lia|exact HB']]|]. destruct s as [n b' o]. cbn [bitCount bbuf sent] in *. subst. rewrite E, ?Hc. reflexivity.
  - exists (out ++ [bbuf s]). split.
    + split; [apply Forall_app; split; [exact Hb|repeat constructor; apply Hbuf]|]. split; [rewrite zlen_app, zlen_1; lia|exact HB].
    + rewrite Es, app_assoc. reflexivity.
Qed.

Lemma bits_inv_run os : forall s0 l s, ~ In FlushBits os -> Forall byte_op os -> bits_inv s0 l s ->
  bits_inv s0 (l ++ concat (map op_bits os)) (bitRun os s).
Proof.
  induction os as [|o os IH]; intros s0 l s Hf Hb H; cbn [bitRun map concat]; [rewrite app_nil_r; exact H|].
  rewrite app_assoc. apply IH; [intros K; apply Hf; right; exact K|exact (Forall_inv_tail Hb)|].
  destruct o as [b|b|]; cbn [bitStep op_bits]; [apply bits_inv_bit; exact H|apply bits_inv_byte; [exact (Forall_inv Hb)|exact H]|].
  exfalso. apply Hf. left. reflexivity.
Qed.
Lemma bitRun_app a : forall b s, bitRun (a ++ b) s = bitRun b (bitRun a s).
Proof. induction a as [|o a IH]; intros b s; cbn [app bitRun]; auto. Qed.

(** ** Packing a rendered character *)
Definition row_bits (r : rendered) (y x : Z) (n : nat) : list bool := map (fun x => rpixel r x y) (count_up n x).
Lemma land7 x : Z.land x 7 = x mod 8.
Proof. change 7 with (Z.ones 3). rewrite Z.land_ones by lia. reflexivity. Qed.
Lemma count_up_len n : forall a, length (count_up n a) = n.
Proof. induction n as [|n IH]; intros a; cbn [count_up length]; [reflexivity|rewrite IH; reflexivity]. Qed.

Lemma packRow_ok r y s0 n : forall x l s,
  delivered r -> 0 <= y < rrows r -> 0 <= x -> x + Z.of_nat n = rwidth r -> bits_inv s0 l s ->
  exists s', packRow n r x y s = Ok s' /\ bits_inv s0 (l ++ row_bits r y x n) s'.
Proof.
  induction n as [|n IH]; intros x l s Hr Hy Hx Hn H; cbn [packRow].
  - exists s. split; [reflexivity|]. unfold row_bits. cbn [count_up map]. rewrite app_nil_r. exact H.
  - pose proof Hr as [H1 [H2 [H3 [H4 [H5 H6]]]]].
    assert (Hi : 0 <= y * rpitch r + x / 8 < rrows r * rpitch r).
    { assert (0 <= x / 8 < rpitch r) by lia. nia. }
    assert (Hu : u32 (u32 (y * rpitch r) + x / 8) = y * rpitch r + x / 8).
    { unfold u32. assert (0 <= y * rpitch r) by (apply Z.mul_nonneg_nonneg; lia). rewrite (Z.mod_small (y * rpitch r)) by lia. apply Z.mod_small. lia. }
    rewrite Hu, rd_ok by lia. cbn [bind].
    rewrite land7, bit_land by lia. fold (rpixel r x y).
    destruct (IH (x + 1) (l ++ [rpixel r x y]) (putBit (rpixel r x y) s)) as [s' [E F]]; [exact Hr|exact Hy|lia|lia|apply bits_inv_bit; exact H|].
    exists s'. split; [exact E|]. unfold row_bits in *. cbn [count_up map]. rewrite <- app_assoc in F. exact F.
Qed.
Definition all_bits (r : rendered) (y : Z) (n : nat) : list bool :=
  concat (map (fun y => row_bits r y 0 (Z.to_nat (rwidth r))) (count_up n y)).
Lemma packRows_ok r s0 n : forall y l s,
  delivered r -> 0 <= y -> y + Z.of_nat n = rrows r -> bits_inv s0 l s ->
  exists s', packRows n r y s = Ok s' /\ bits_inv s0 (l ++ all_bits r y n) s'.
Proof.
  induction n as [|n IH]; intros y l s Hr Hy Hn H; cbn [packRows].
  - exists s. split; [reflexivity|]. unfold all_bits. cbn [count_up map concat]. rewrite app_nil_r. exact H.
  - pose proof Hr as [H1 _].
    destruct (packRow_ok r y s0 (Z.to_nat (rwidth r)) 0 l s Hr) as [s1 [E1 F1]]; [lia|lia|lia|exact H|]. rewrite E1. cbn [bind].
    destruct (IH (y + 1) _ s1 Hr ltac:(lia) ltac:(lia) F1) as [s2 [E2 F2]]. exists s2. split; [exact E2|].
    unfold all_bits in *. cbn [count_up map concat]. rewrite <- app_assoc in F2. exact F2.
Qed.
Lemma row_bits_len r y x n : zlen (row_bits r y x n) = Z.of_nat n.
Proof. unfold row_bits. rewrite zlen_map. unfold zlen. rewrite count_up_len. reflexivity. Qed.
Lemma nth_count_up n : forall a i, (i < n)%nat -> nth i (count_up n a) 0 = a + Z.of_nat i.
Proof.
  induction n as [|n IH]; intros a i Hi; [lia|]. cbn [count_up]. destruct i as [|i]; cbn [nth]; [lia|].
  rewrite IH by lia. lia.
Qed.
Lemma row_bits_at r y n i : 0 <= i < Z.of_nat n -> bit_at (row_bits r y 0 n) i = rpixel r i y.
Proof.
  intros Hi. unfold bit_at, row_bits.
  rewrite (nth_indep _ false (rpixel r 0 y)) by (rewrite map_length, count_up_len; lia).
  rewrite (map_nth (fun x => rpixel r x y)). rewrite nth_count_up by lia. f_equal. lia.
Qed.
Lemma all_bits_len r n : forall y, 0 <= rwidth r -> zlen (all_bits r y n) = Z.of_nat n * rwidth r.
Proof.
  induction n as [|n IH]; intros y Hw; [reflexivity|]. unfold all_bits in *. cbn [count_up map concat].
  rewrite zlen_app, IH, row_bits_len by exact Hw. lia.
Qed.
Lemma all_bits_at r n : forall y i j, 0 <= i < rwidth r -> 0 <= j < Z.of_nat n ->
  bit_at (all_bits r y n) (j * rwidth r + i) = rpixel r i (y + j).
Proof.
  induction n as [|n IH]; intros y i j Hi Hj; [lia|]. unfold all_bits in *. cbn [count_up map concat].
  rewrite bit_at_app by nia. rewrite row_bits_len, Z2Nat.id by lia. destruct (Z.eq_dec j 0) as [->|Hj0].
  - replace (0 * rwidth r + i <? rwidth r) with true by lia. rewrite row_bits_at by lia. f_equal; lia.
  - replace (j * rwidth r + i <? rwidth r) with false by nia.
    replace (j * rwidth r + i - rwidth r) with ((j - 1) * rwidth r + i) by ring. rewrite IH by lia. f_equal. lia.
Qed.

Lemma s8_small z : -128 <= z < 128 -> s8 z = z.
Proof. intros H. unfold s8. destruct (Z.ltb_spec (z mod 256) 128); lia. Qed.
Lemma delivered_ok r : rendered_ok r -> delivered r.
Proof.
  intros [H1 [H2 [H3 [H4 [H5 [H6 _]]]]]]. split; [lia|]. split; [lia|]. split; [exact H3|]. split; [exact H5|]. split; [nia|exact H6].
Qed.
Lemma packGlyph_any r :
  delivered r ->
  exists data, packGlyph r newBits =
      Ok (mkGlyph (rsize r mod 65536) (rwidth r mod 256) (rrows r mod 256) (u8 (Z.shiftr (radvance r) 16)) (s8 (rleft r)) (s8 (1 - rtop r)), data, newBits) /\
    bytes data /\ zlen data = rsize r /\
    forall i j, 0 <= i < rwidth r -> 0 <= j < rrows r -> img_bit data (j * rwidth r + i) = rpixel r i j.
Proof.
  intros Hr. pose proof Hr as [H1 [H2 _]].
  destruct (packRows_ok r [] (Z.to_nat (rrows r)) 0 [] newBits Hr) as [s [E F]]; [lia|lia|apply bits_inv_new|].
  apply bits_inv_flush in F. destruct F as [data [[P1 [P2 P3]] F]]. cbn [app] in F, P2, P3.
  rewrite all_bits_len, Z2Nat.id in P2 by lia.
  assert (HS : zlen data = rsize r) by (rewrite P2; unfold rsize; f_equal; lia).
  exists data. split.
  - unfold packGlyph. rewrite E. cbn [bind]. rewrite F. cbn [sent bitCount bbuf]. unfold u8 at 1 2. unfold u16. rewrite HS. reflexivity.
  - split; [exact P1|]. split; [exact HS|]. intros i j Hi Hj. rewrite P3 by nia.
    rewrite (all_bits_at r (Z.to_nat (rrows r)) 0 i j) by lia. reflexivity.
Qed.
Lemma packGlyph_ok r :
  rendered_ok r ->
  exists data, packGlyph r newBits =
      Ok (mkGlyph (rsize r) (rwidth r) (rrows r) (u8 (Z.shiftr (radvance r) 16)) (rleft r) (1 - rtop r), data, newBits) /\
    bytes data /\ zlen data = rsize r /\
    forall i j, 0 <= i < rwidth r -> 0 <= j < rrows r -> img_bit data (j * rwidth r + i) = rpixel r i j.
Proof.
  intros Hr. destruct (packGlyph_any r (delivered_ok r Hr)) as [data [E H]]. exists data. split; [|exact H]. rewrite E.
  destruct Hr as [H1 [H2 [_ [_ [_ [_ [H7 H8]]]]]]].
  rewrite !s8_small, (Z.mod_small (rwidth r)), (Z.mod_small (rrows r)) by lia. rewrite (Z.mod_small (rsize r)) by (unfold rsize; nia). reflexivity.
Qed.
Lemma packGlyph_holds r : rendered_ok r -> exists d, packGlyph r newBits = Ok (d, newBits) /\ holds r d.
Proof.
  intros Hr. destruct (packGlyph_ok r Hr) as [data [E [A [B C]]]]. eexists. split; [exact E|].
  unfold holds. cbn [fst snd gw gh gshift gox goy goff]. rewrite Z.shiftr_div_pow2 by lia. change (2 ^ 16) with 65536.
  repeat (split; [reflexivity|]). split; [exact A|]. split; [exact B|exact C].
Qed.

(** ** The sequence of codes *)
Lemma font_codes_nil a b : b < a -> font_codes a b = [].
Proof. intros H. unfold font_codes. replace (Z.to_nat (b - a + 1)) with O by lia. reflexivity. Qed.
Lemma font_codes_cons a b : a <= b ->
  font_codes a b = if (a <? 127) || (159 <? a) then a :: font_codes (a + 1) b else font_codes (a + 1) b.
Proof.
  intros H. unfold font_codes. replace (Z.to_nat (b - a + 1)) with (S (Z.to_nat (b - (a + 1) + 1))) by lia.
  cbn [count_up filter]. reflexivity.
Qed.
Lemma font_codes_gap n : forall a b, 160 - a = Z.of_nat n -> 127 <= a -> font_codes a b = font_codes 160 b.
Proof.
  induction n as [|n IH]; intros a b Hn Ha; [replace a with 160 by lia; reflexivity|].
  destruct (Z_le_dec a b) as [H|H]; [|rewrite !font_codes_nil by lia; reflexivity].
  rewrite font_codes_cons by exact H. replace ((a <? 127) || (159 <? a)) with false by lia. apply IH; lia.
Qed.
Lemma codeLoop_ok fuel : forall i last, i <= 126 \/ 160 <= i -> Z.max 0 (last - i + 1) < Z.of_nat fuel ->
  codeLoop fuel i last = Ok (font_codes i last).
Proof.
  induction fuel as [|fuel IH]; intros i last Hi Hf; [lia|]. cbn [codeLoop].
  destruct (Z.leb_spec i last); [|rewrite font_codes_nil by lia; reflexivity].
  rewrite font_codes_cons by lia. replace ((i <? 127) || (159 <? i)) with true by lia.
  destruct (Z.eqb_spec i 126) as [->|].
  - rewrite IH by lia. cbn [bind]. rewrite (font_codes_gap 33 (126 + 1) last) by lia. reflexivity.
  - rewrite IH by lia. reflexivity.
Qed.
Lemma font_codes_in a b c : In c (font_codes a b) <-> a <= c <= b /\ ~ (127 <= c <= 159).
Proof. unfold font_codes. rewrite filter_In, in_count_up. lia. Qed.

(** ** EncodingConverter *)
Lemma blit_pending (b : list Z) k s : 0 <= k < zlen b ->
  firstn (Z.to_nat (1 + k)) (blit b k [s]) = firstn (Z.to_nat k) b ++ [s].
Proof.
  intros H. unfold blit, zlen in *. replace (Z.to_nat (1 + k)) with (length (firstn (Z.to_nat k) b ++ [s])).
  - rewrite app_assoc, firstn_app, firstn_all, Nat.sub_diag. cbn [firstn]. apply app_nil_r.
  - rewrite app_length, firstn_length. cbn [length]. lia.
Qed.
Lemma firstn_blit (b : list Z) k s : 0 <= k < zlen b -> firstn (Z.to_nat k) (blit b k [s]) = firstn (Z.to_nat k) b.
Proof.
  intros H. unfold blit, zlen in *. rewrite firstn_app, firstn_firstn, firstn_length. rewrite Nat.min_id.
  replace (Z.to_nat k - Nat.min (Z.to_nat k) (length b))%nat with O by lia. cbn [firstn]. apply app_nil_r.
Qed.
Lemma wr_ok (b : list Z) k s : 0 <= k < zlen b -> wr b k s = Ok (blit b k [s]).
Proof. intros H. unfold wr, wr_slice. replace (inb (zlen b) k (zlen [s])) with true; [reflexivity|]. symmetry. apply inb_true. rewrite zlen_1. lia. Qed.

Lemma convertBytes_step iconv s e :
  encoder_ok e ->
  exists e', encoder_ok e' /\ calls e' = S (calls e) /\
    convertBytes iconv s e = Ok (match iconv (calls e) (pending e ++ [s]) with Converted out => out | _ => [] end, e') /\
    pending e' = match iconv (calls e) (pending e ++ [s]) with
                 | Converted _ => pending e
                 | Incomplete => if zlen (pending e) =? 2 then [] else pending e ++ [s]
                 | IconvError => []
                 end.
Proof.
  intros [H1 H2]. unfold convertBytes. rewrite wr_ok by lia. cbn [bind].
  assert (HL : zlen (blit (ebuf e) (inSize e) [s]) = 4) by (rewrite zlen_blit; rewrite ?zlen_1; lia).
  assert (HP : zlen (pending e) = inSize e) by (unfold pending, zlen in *; rewrite firstn_length; lia).
  unfold rd_slice. replace (inb (zlen (blit (ebuf e) (inSize e) [s])) 0 (1 + inSize e)) with true by (symmetry; apply inb_true; lia).
  cbn [bind]. unfold slice. change (Z.to_nat 0) with O. cbn [skipn]. rewrite blit_pending by lia. fold (pending e).
  destruct (iconv (calls e) (pending e ++ [s])) as [out| |].
  - eexists. split; [|split; [|split; [reflexivity|]]]; [split; [exact HL|exact H2]|reflexivity|].
    unfold pending at 1. cbn [inSize ebuf]. apply firstn_blit. lia.
  - eexists. split; [|split; [|split; [reflexivity|]]]; [split; [exact HL|cbn [inSize]; lia]|reflexivity|].
    unfold pending at 1. cbn [inSize ebuf]. rewrite HP. destruct (Z.eqb_spec (inSize e) 2) as [E|E].
    + rewrite E. reflexivity.
    + rewrite Z.mod_small by lia. rewrite (Z.add_comm (inSize e) 1). apply blit_pending. lia.
  - eexists. split; [|split; [|split; [reflexivity|]]]; [split; [exact HL|cbn [inSize]; lia]|reflexivity|].
    reflexivity.
Qed.

(** ** The table *)
Lemma tableLoop_ok iconv u render codes : forall e,
  single_byte iconv u -> (forall c, In c codes -> 0 <= c < 256) ->
  (forall c, In c codes -> rendered_ok (render (u c))) -> encoder_ok e -> pending e = [] ->
  exists t, tableLoop iconv render codes e newBits = Ok t /\ Forall2 (fun c d => holds (render (u c)) d) codes t.
Proof.
  induction codes as [|c codes IH]; intros e Hs Hc Hr He Hp; cbn [tableLoop]; [exists []; split; [reflexivity|constructor]|].
  assert (Hu : u8 c = c) by (unfold u8; apply Z.mod_small; apply Hc; left; reflexivity).
  destruct (convertBytes_step iconv c e He) as [e' [He' [_ [E P]]]]. rewrite Hp in E, P. cbn [app] in E, P.
  destruct (Hs (calls e) c (Hc c (or_introl eq_refl))) as (x0 & x1 & x2 & x3 & Ei & Eu). rewrite Ei in E, P.
  unfold convertRaw. rewrite Hu, E. cbn [bind].
  replace (nthZ [x0; x1; x2; x3] 0 + 256 * nthZ [x0; x1; x2; x3] 1 + 65536 * nthZ [x0; x1; x2; x3] 2 + 16777216 * nthZ [x0; x1; x2; x3] 3)
    with (u c) by (rewrite Eu; reflexivity).
  destruct (packGlyph_holds (render (u c)) (Hr c (or_introl eq_refl))) as [d [Ed Hd]]. rewrite Ed. cbn [bind].
  destruct (IH e' Hs) as [t [Et Ft]]; [intros x Hx; apply Hc; right; exact Hx|intros x Hx; apply Hr; right; exact Hx|exact He'|exact P|].
  rewrite Et. cbn [bind]. eexists. split; [reflexivity|]. constructor; assumption.
Qed.

(** ** Binary output *)
Lemma binaryGlyphs_nth t : forall off k d, 0 <= off < 65536 -> nth_error t k = Some d ->
  nth_error (binaryGlyphs off t) k =
  Some (mkGlyph (u16 (off + total (map (fun d => zlen (snd d)) (firstn k t)))) (gw (fst d)) (gh (fst d)) (gshift (fst d)) (gox (fst d)) (goy (fst d))).
Proof.
  induction t as [|[g data] t IH]; intros off k d Ho E; [destruct k; discriminate|]. destruct k as [|k]; cbn [nth_error binaryGlyphs firstn map total] in *.
  - injection E as <-. cbn [fst]. unfold u16. rewrite Z.add_0_r, Z.mod_small by lia. reflexivity.
  - rewrite (IH _ _ d) by (try exact E; unfold u16; apply Z.mod_pos_bound; lia). do 2 f_equal. cbn [snd]. unfold u16. lia.
Qed.
Lemma binaryGlyphs_len t : forall off, length (binaryGlyphs off t) = length t.
Proof. induction t as [|[g data] t IH]; intros off; cbn [binaryGlyphs length]; [reflexivity|rewrite IH; reflexivity]. Qed.
Lemma total_nonneg {A} (f : A -> Z) l : (forall x, 0 <= f x) -> 0 <= total (map f l).
Proof. intros H. induction l as [|x l IH]; cbn [map total]; [lia|specialize (H x); lia]. Qed.
Lemma concat_len {A} (l : list (list A)) : zlen (concat l) = total (map zlen l).
Proof. induction l as [|x l IH]; cbn [concat map total]; [reflexivity|]. rewrite zlen_app, IH. reflexivity. Qed.
Lemma nth_split_concat (t : list glyphData) k d : nth_error t k = Some d ->
  exists pre post, bitmapsFile t = pre ++ snd d ++ post /\ zlen pre = total (map (fun d => zlen (snd d)) (firstn k t)).
Proof.
  revert k. induction t as [|x t IH]; intros k E; [destruct k; discriminate|]. unfold bitmapsFile in *. destruct k as [|k]; cbn [nth_error firstn map concat total] in *.
  - injection E as <-. exists [], (concat (map snd t)). split; reflexivity.
  - destruct (IH k E) as [pre [post [-> H]]]. exists (snd x ++ pre), post. split; [rewrite app_assoc; reflexivity|]. rewrite zlen_app, H. reflexivity.
Qed.
Lemma bitmaps_bit t k d m : nth_error t k = Some d -> 0 <= m < 8 * zlen (snd d) ->
  img_bit (bitmapsFile t) (8 * total (map (fun d => zlen (snd d)) (firstn k t)) + m) = img_bit (snd d) m.
Proof.
  intros E Hm. destruct (nth_split_concat t k d E) as [pre [post [-> <-]]]. pose proof (zlen_nonneg pre).
  rewrite img_bit_app by lia. replace (8 * zlen pre + m <? 8 * zlen pre) with false by lia.
  replace (8 * zlen pre + m - 8 * zlen pre) with m by lia. rewrite img_bit_app by lia.
  replace (m <? 8 * zlen (snd d)) with true by lia. reflexivity.
Qed.
Lemma data_end t k d : nth_error t k = Some d ->
  total (map (fun d => zlen (snd d)) (firstn k t)) + zlen (snd d) <= zlen (bitmapsFile t).
Proof.
  intros E. destruct (nth_split_concat t k d E) as [pre [post [-> <-]]]. rewrite !zlen_app. pose proof (zlen_nonneg post). lia.
Qed.
Lemma read_glyphBytes g : glyph_typed g -> read_glyph (glyphBytes g) = g.
Proof.
  intros H. unfold glyph_typed in H. destruct g as [o w h sh ox oy]. cbn [goff gw gh gshift gox goy] in H. unfold read_glyph, glyphBytes, nthZ. cbn [goff gw gh gshift gox goy].
  change (Z.to_nat 0) with 0%nat. change (Z.to_nat 1) with 1%nat. change (Z.to_nat 2) with 2%nat. change (Z.to_nat 3) with 3%nat.
  change (Z.to_nat 4) with 4%nat. change (Z.to_nat 5) with 5%nat. change (Z.to_nat 6) with 6%nat. cbn [nth].
  f_equal; [lia| |]; unfold s8, u8; rewrite Z.mod_mod by lia.
  - destruct (Z.ltb_spec (ox mod 256) 128); lia.
  - destruct (Z.ltb_spec (oy mod 256) 128); lia.
Qed.

(** ** The font made from a table *)
Definition table_font (t : list glyphData) (first last : Z) : font := mkFont (bitmapsFile t) (binaryGlyphs 0 t) first last.
Lemma table_font_typed codes rs t fst_ lst :
  0 <= fst_ < 256 -> 0 <= lst < 256 -> Forall2 (fun (c : Z) d => holds (rs c) d) codes t -> (forall c, In c codes -> rendered_ok (rs c)) ->
  font_typed (table_font t fst_ lst).
Proof.
  intros H1 H2 HT HR. split; [exact H1|]. split; [exact H2|]. cbn [table_font bitmap glyphs].
  assert (HF : Forall (fun d : glyphData => bytes (snd d) /\ 0 <= gw (fst d) < 256 /\ 0 <= gh (fst d) < 256 /\ 0 <= gshift (fst d) < 256 /\
     -128 <= gox (fst d) < 128 /\ -128 <= goy (fst d) < 128) t).
  { clear H1 H2. induction HT as [|c d codes t Hd HT IH]; constructor.
    - destruct Hd as [A [B [C [D [E [F [G _]]]]]]]. destruct (HR c (or_introl eq_refl)) as [R1 [R2 [_ [_ [_ [_ [R3 R4]]]]]]].
      rewrite A, B, C, D, E. split; [exact G|]. unfold u8. lia.
    - apply IH. intros x Hx. apply HR. right. exact Hx. }
  split.
  - unfold bitmapsFile. clear -HF. induction HF as [|d t [Hd _] _ IH]; cbn [map concat]; [constructor|apply Forall_app; split; assumption].
  - assert (G : forall off, 0 <= off < 65536 -> Forall glyph_typed (binaryGlyphs off t)).
    { clear -HF. induction HF as [|[g data] t [_ Hd] _ IH]; intros off Ho; cbn [binaryGlyphs]; constructor.
      - cbn [fst] in Hd. unfold glyph_typed. cbn [goff gw gh gshift gox goy]. lia.
      - apply IH. unfold u16. lia. }
    apply G. lia.
Qed.
Lemma Forall2_nth {A B} (P : A -> B -> Prop) l t : Forall2 P l t -> forall k c, nth_error l k = Some c -> exists d, nth_error t k = Some d /\ P c d.
Proof.
  induction 1 as [|c d l t Hd H IH]; intros [|k] x E; cbn [nth_error] in *; try discriminate.
  - injection E as <-. eauto.
  - apply IH. exact E.
Qed.
Lemma Forall2_len {A B} (P : A -> B -> Prop) l t : Forall2 P l t -> length l = length t.
Proof. induction 1; cbn [length]; congruence. Qed.
