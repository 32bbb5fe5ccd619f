(** Lemmas about the frame buffer model. *)
From Verif Require Import Base S_Graphics M_FrameBuffer S_Paint.
Ltac Zify.zify_post_hook ::= Z.div_mod_to_equations.

Lemma accepted_facts w h d :
  accepted w h d = true ->
  0 <= w /\ 0 <= h /\ (d = 1 \/ d = 2 \/ d = 4 \/ d = 8 \/ d = 16 \/ d = 24 \/ d = 32) /\
  effectiveWidth w d = w * d / 8 * 8 /\ effectiveWidth w d mod 8 = 0 /\ 0 <= effectiveWidth w d /\
  8 * bufferSize w h d = effectiveWidth w d * h * d /\
  effectiveWidth w d * h * d <= INT_MAX /\ effectiveWidth w d * h <= INT_MAX /\
  effectiveWidth w d <= INT_MAX /\ h <= INT_MAX.
Proof.
  unfold accepted. rewrite !andb_true_iff, !in_int_true.
  intros [[[[[[[[[[H1 H2] H3] H4] H5] H6] H7] H8] H9] H10] H11].
  apply Z.leb_le in H1, H2.
  assert (Hd : d = 1 \/ d = 2 \/ d = 4 \/ d = 8 \/ d = 16 \/ d = 24 \/ d = 32).
  { unfold valid_depth in H3. cbn [existsb] in H3. lia. }
  assert (Hq : effectiveWidth w d = w * d / 8 * 8).
  { unfold effectiveWidth. rewrite Z.quot_div_nonneg; lia. }
  assert (Hm : effectiveWidth w d mod 8 = 0) by (rewrite Hq; apply Z.mod_mul; lia).
  assert (H0 : 0 <= effectiveWidth w d) by (rewrite Hq; lia).
  repeat (split; [assumption|]). unfold INT_MIN, INT_MAX in *. repeat (split; [|lia]).
  unfold bufferSize. rewrite Z.quot_div_nonneg by nia.
  set (W := effectiveWidth w d) in *.
  assert (HW : W = 8 * (W / 8)) by lia. rewrite HW.
  replace (8 * (W / 8) * h * d) with ((W / 8) * h * d * 8) by ring. rewrite Z.div_mul by lia. ring.
Qed.

Lemma accepted_iff w h d :
  accepted w h d = true <->
  0 <= w /\ 0 <= h <= INT_MAX /\ w * d / 8 * 8 * h * d <= INT_MAX /\
  (d = 1 /\ w mod 8 = 0 /\ w <= 2147483640 \/ d = 2 /\ w mod 4 = 0 /\ w <= 1073741820 \/
   d = 4 /\ w <= 268435455 \/ d = 8 /\ w <= 16777215 \/ d = 16 /\ w <= 65535 \/ d = 24 /\ w <= 255 \/ d = 32 /\ w <= 1).
Proof.
  split.
  - intros Ha. pose proof (accepted_facts _ _ _ Ha) as [Hw [Hh [Hd [He [_ [_ [_ [Hb [_ [_ Hi]]]]]]]]]].
    rewrite He in Hb. repeat (split; [lia|]).
    unfold accepted in Ha. rewrite !andb_true_iff, !in_int_true in Ha.
    destruct Ha as [[[[[[[[_ H4] H5] _] _] _] _] _] _]. apply Z.eqb_eq in H5.
    destruct Hd as [Hd|[Hd|[Hd|[Hd|[Hd|[Hd|Hd]]]]]]; subst d; unfold pow_minus1, INT_MIN, INT_MAX in *; cbn in H4, H5;
      try (rewrite Z.rem_mod_nonneg in H5 by lia); lia.
  - intros [Hw [Hh [Hb Hd]]].
    assert (Hn : d = 1 \/ d = 2 \/ d = 4 \/ d = 8 \/ d = 16 \/ d = 24 \/ d = 32) by tauto.
    assert (Hq : effectiveWidth w d = w * d / 8 * 8) by (unfold effectiveWidth; rewrite Z.quot_div_nonneg; lia).
    assert (H0 : 0 <= w * d / 8 * 8) by lia.
    assert (Hz : 0 <= w * d / 8 * 8 * h) by nia.
    assert (Hm : w * d / 8 * 8 * h <= w * d / 8 * 8 * h * d) by nia.
    unfold accepted. rewrite Hq, !andb_true_iff, !in_int_true, Z.eqb_eq, !Z.leb_le.
    set (E := w * d / 8 * 8 * h) in *. clearbody E.
    assert (Hv : valid_depth d = true) by (unfold valid_depth; cbn [existsb]; lia).
    clear Hq Hn.
    assert (HE : INT_MIN <= E <= INT_MAX) by (unfold INT_MIN, INT_MAX in *; lia).
    assert (HEd : INT_MIN <= E * d <= INT_MAX) by (unfold INT_MIN, INT_MAX in *; nia).
    assert (Hwd : 0 <= w * d <= INT_MAX) by (unfold INT_MAX in *; lia).
    assert (Hp : INT_MIN <= w * pow_minus1 d <= INT_MAX /\ Z.rem (w * pow_minus1 d) 8 = 0).
    { destruct Hd as [Hd|[Hd|[Hd|[Hd|[Hd|[Hd|Hd]]]]]]; destruct Hd as [-> Hd]; unfold pow_minus1, INT_MIN, INT_MAX in *; cbn;
        try (rewrite Z.rem_mod_nonneg by lia; lia).
      assert (Hc : w = 0 \/ w = 1) by lia. destruct Hc as [-> | ->]; cbn; split; [lia|reflexivity|lia|reflexivity]. }
    destruct Hp as [Hp1 Hp2]. unfold INT_MIN, INT_MAX in *. repeat split; try assumption; lia.
Qed.

Lemma rdm_ok (m : list Z) o : 0 <= o < zlen m -> rd m o = Ok (nthZ m o).
Proof. intros H. unfold rd. replace (inb (zlen m) o 1) with true; [reflexivity|]. symmetry. apply inb_true. lia. Qed.
Lemma wr_bit (m : list Z) o v :
  0 <= o < zlen m ->
  exists m', wr m o v = Ok m' /\ zlen m' = zlen m /\
    (bytes m -> is_byte v -> bytes m') /\
    nthZ m' o = v /\ (forall i, 0 <= i -> i <> o -> nthZ m' i = nthZ m i) /\
    (forall i, 0 <= i -> img_bit m' i = if i / 8 =? o then Z.testbit v (7 - i mod 8) else img_bit m i).
Proof.
  intros H. unfold wr, wr_slice. rewrite zlen_1.
  replace (inb (zlen m) o 1) with true by (symmetry; apply inb_true; lia).
  assert (Hn : forall i, 0 <= i -> nthZ (blit m o [v]) i = if i =? o then v else nthZ m i).
  { intros i Hi. rewrite nthZ_blit by (rewrite ?zlen_1; lia). rewrite zlen_1.
    destruct (Z.eqb_spec i o) as [->|Hne].
    - replace ((o <=? o) && (o <? o + 1)) with true by lia. rewrite Z.sub_diag. reflexivity.
    - replace ((o <=? i) && (i <? o + 1)) with false by lia. reflexivity. }
  assert (Hl : zlen (blit m o [v]) = zlen m) by (apply zlen_blit; rewrite ?zlen_1; lia).
  eexists. split; [reflexivity|]. split; [exact Hl|]. split; [|split; [|split]].
  - intros Hb Hv. unfold bytes in *. rewrite Forall_forall in *. intros x Hx.
    apply (In_nth _ _ 0) in Hx. destruct Hx as [n [Hn1 Hn2]].
    specialize (Hn (Z.of_nat n) ltac:(lia)). unfold nthZ in Hn at 1. rewrite Nat2Z.id, Hn2 in Hn. subst x.
    destruct (Z.of_nat n =? o); [exact Hv|]. apply Hb. unfold nthZ. apply nth_In.
    unfold zlen in Hl. rewrite Nat2Z.id. lia.
  - rewrite Hn, Z.eqb_refl by lia. reflexivity.
  - intros i Hi Hne. rewrite Hn by lia. replace (i =? o) with false by lia. reflexivity.
  - intros i Hi. unfold img_bit. rewrite Hn by lia. destruct (i / 8 =? o); reflexivity.
Qed.

Lemma nthZ_byte (l : list Z) i : bytes l -> 0 <= nthZ l i < 256.
Proof.
  intros H. unfold nthZ. destruct (nth_in_or_default (Z.to_nat i) l 0) as [Hi| ->]; [|lia].
  unfold bytes in H. rewrite Forall_forall in H. apply H. exact Hi.
Qed.
Lemma u8_byte z : is_byte (u8 z).
Proof. unfold is_byte, u8. lia. Qed.
Lemma u8_bit z j : 0 <= j < 8 -> Z.testbit (u8 z) j = Z.testbit z j.
Proof. intros H. unfold u8. change 256 with (2 ^ 8). apply Z.mod_pow2_bits_low. lia. Qed.
Lemma land255 z : Z.land z 255 = u8 z.
Proof. unfold u8. change 255 with (Z.ones 8). rewrite Z.land_ones by lia. reflexivity. Qed.
Lemma land_ones' z n : 0 <= n -> Z.land z (2 ^ n - 1) = z mod 2 ^ n.
Proof. intros H. rewrite <- Z.land_ones by lia. f_equal. rewrite Z.ones_equiv. lia. Qed.

(** the effect of storing colour [c] into pixel number [p] of an image of depth [d] *)
Definition stored (d p c : Z) (m m' : list Z) : Prop :=
  zlen m' = zlen m /\ (bytes m -> bytes m') /\
  forall i, 0 <= i ->
    img_bit m' i = if i / d =? p then Z.testbit (colour d c) (d - 1 - i mod d) else img_bit m i.

Lemma testbit_mod c n j : 0 <= j < n -> Z.testbit (c mod 2 ^ n) j = Z.testbit c j.
Proof. intros H. apply Z.mod_pow2_bits_low. lia. Qed.

Lemma store1 m p x c :
  0 <= p -> x mod 8 = p mod 8 -> 0 <= x -> p + 1 <= 8 * zlen m ->
  exists m', store_pixel 1 m (p / 8) x c = Ok m' /\ stored 1 p c m m'.
Proof.
  intros Hp Hx Hx0 Hl. unfold store_pixel. cbn [Z.eqb Pos.eqb].
  rewrite Z.rem_mod_nonneg by lia. unfold shr.
  replace ((0 <=? x mod 8) && (x mod 8 <? 32)) with true by lia. cbn [bind].
  rewrite rdm_ok by lia. cbn [bind].
  assert (Hmask : forall j, 0 <= j < 8 -> Z.testbit (Z.shiftr 128 (x mod 8)) j = (j =? 7 - x mod 8)).
  { intros j Hj. rewrite Z.shiftr_spec by lia. change 128 with (2 ^ 7).
    rewrite Z.pow2_bits_eqb by lia. lia. }
  unfold stored, colour. cbn [Z.eqb Pos.eqb].
  destruct (c =? 0); cbn [negb].
  - destruct (wr_bit m (p / 8) (u8 (Z.land (nthZ m (p / 8)) (Z.lnot (Z.shiftr 128 (x mod 8))))) ltac:(lia))
      as [m' [E [E1 [E2 [_ [_ E3]]]]]].
    exists m'. split; [exact E|]. split; [exact E1|]. split; [intros; apply E2; auto using u8_byte|].
    intros i Hi. rewrite E3 by lia. rewrite Z.div_1_r, Z.bits_0.
    destruct (Z.eqb_spec (i / 8) (p / 8)) as [He|He].
    + rewrite u8_bit by lia. rewrite Z.land_spec, Z.lnot_spec by lia. rewrite Hmask by lia.
      destruct (Z.eqb_spec i p) as [Hip|Hip].
      * replace (7 - i mod 8 =? 7 - x mod 8) with true by lia. apply andb_false_r.
      * replace (7 - i mod 8 =? 7 - x mod 8) with false by lia. rewrite andb_true_r.
        unfold img_bit. rewrite He. reflexivity.
    + replace (i =? p) with false; [reflexivity|]. symmetry. apply Z.eqb_neq. intros ->. congruence.
  - destruct (wr_bit m (p / 8) (u8 (Z.lor (nthZ m (p / 8)) (Z.shiftr 128 (x mod 8)))) ltac:(lia))
      as [m' [E [E1 [E2 [_ [_ E3]]]]]].
    exists m'. split; [exact E|]. split; [exact E1|]. split; [intros; apply E2; auto using u8_byte|].
    intros i Hi. rewrite E3 by lia. rewrite Z.div_1_r, Z.mod_1_r.
    destruct (Z.eqb_spec (i / 8) (p / 8)) as [He|He].
    + rewrite u8_bit by lia. rewrite Z.lor_spec. rewrite Hmask by lia.
      destruct (Z.eqb_spec i p) as [Hip|Hip].
      * replace (7 - i mod 8 =? 7 - x mod 8) with true by lia. apply orb_true_r.
      * replace (7 - i mod 8 =? 7 - x mod 8) with false by lia. rewrite orb_false_r.
        unfold img_bit. rewrite He. reflexivity.
    + replace (i =? p) with false; [reflexivity|]. symmetry. apply Z.eqb_neq. intros ->. congruence.
Qed.

Lemma store8 m p x c :
  0 <= p -> (p + 1) * 8 <= 8 * zlen m ->
  exists m', store_pixel 8 m (p * 8 / 8) x c = Ok m' /\ stored 8 p c m m'.
Proof.
  intros Hp Hl. unfold store_pixel. cbn [Z.eqb Pos.eqb]. rewrite Z.div_mul by lia.
  destruct (wr_bit m p (u8 c) ltac:(lia)) as [m' [E [E1 [E2 [_ [_ E3]]]]]].
  exists m'. split; [exact E|]. split; [exact E1|]. split; [intros; apply E2; auto using u8_byte|].
  intros i Hi. rewrite E3 by lia. reflexivity.
Qed.

Ltac st8 H := destruct H as [? [E [? [? [_ [_ ?]]]]]].
Lemma byte_bit c n i : 0 <= n -> 0 <= i < 8 -> Z.testbit (u8 (Z.shiftr c n)) i = Z.testbit c (i + n).
Proof. intros. rewrite u8_bit by lia. apply Z.shiftr_spec. lia. Qed.

Lemma store16 m p x c :
  0 <= p -> (p + 1) * 16 <= 8 * zlen m ->
  exists m', store_pixel 16 m (p * 16 / 8) x c = Ok m' /\ stored 16 p c m m'.
Proof.
  intros Hp Hl. unfold store_pixel. cbn [Z.eqb Pos.eqb].
  replace (p * 16 / 8) with (2 * p) by lia. rewrite land255.
  destruct (wr_bit m (2 * p) (u8 (Z.shiftr c 8)) ltac:(lia)) as [m1 [-> [L1 [B1 [_ [_ F1]]]]]]. cbn [bind].
  destruct (wr_bit m1 (2 * p + 1) (u8 c) ltac:(lia)) as [m2 [-> [L2 [B2 [_ [_ F2]]]]]].
  exists m2. split; [reflexivity|]. split; [lia|]. split; [auto using u8_byte|].
  intros i Hi. rewrite F2, F1 by lia. unfold colour. cbn [Z.eqb Pos.eqb].
  destruct (Z.eqb_spec (i / 16) p) as [Hip|Hip].
  - rewrite testbit_mod by lia.
    destruct (Z.eqb_spec (i / 8) (2 * p + 1)); [|destruct (Z.eqb_spec (i / 8) (2 * p)); [|lia]].
    + rewrite u8_bit by lia. f_equal. lia.
    + rewrite byte_bit by lia. f_equal. lia.
  - replace (i / 8 =? 2 * p + 1) with false by lia. replace (i / 8 =? 2 * p) with false by lia. reflexivity.
Qed.

Lemma store24 m p x c :
  0 <= p -> (p + 1) * 24 <= 8 * zlen m ->
  exists m', store_pixel 24 m (p * 24 / 8) x c = Ok m' /\ stored 24 p c m m'.
Proof.
  intros Hp Hl. unfold store_pixel. cbn [Z.eqb Pos.eqb].
  replace (p * 24 / 8) with (3 * p) by lia. rewrite !land255.
  destruct (wr_bit m (3 * p) (u8 (Z.shiftr c 16)) ltac:(lia)) as [m1 [-> [L1 [B1 [_ [_ F1]]]]]]. cbn [bind].
  destruct (wr_bit m1 (3 * p + 1) (u8 (Z.shiftr c 8)) ltac:(lia)) as [m2 [-> [L2 [B2 [_ [_ F2]]]]]]. cbn [bind].
  destruct (wr_bit m2 (3 * p + 2) (u8 c) ltac:(lia)) as [m3 [-> [L3 [B3 [_ [_ F3]]]]]].
  exists m3. split; [reflexivity|]. split; [lia|]. split; [auto using u8_byte|].
  intros i Hi. rewrite F3, F2, F1 by lia. unfold colour. cbn [Z.eqb Pos.eqb].
  destruct (Z.eqb_spec (i / 24) p) as [Hip|Hip].
  - rewrite testbit_mod by lia.
    destruct (Z.eqb_spec (i / 8) (3 * p + 2)); [|destruct (Z.eqb_spec (i / 8) (3 * p + 1)); [|destruct (Z.eqb_spec (i / 8) (3 * p)); [|lia]]].
    + rewrite u8_bit by lia. f_equal. lia.
    + rewrite byte_bit by lia. f_equal. lia.
    + rewrite byte_bit by lia. f_equal. lia.
  - replace (i / 8 =? 3 * p + 2) with false by lia. replace (i / 8 =? 3 * p + 1) with false by lia.
    replace (i / 8 =? 3 * p) with false by lia. reflexivity.
Qed.

Lemma store32 m p x c :
  0 <= p -> (p + 1) * 32 <= 8 * zlen m ->
  exists m', store_pixel 32 m (p * 32 / 8) x c = Ok m' /\ stored 32 p c m m'.
Proof.
  intros Hp Hl. unfold store_pixel. cbn [Z.eqb Pos.eqb].
  replace (p * 32 / 8) with (4 * p) by lia. rewrite !land255.
  destruct (wr_bit m (4 * p) (u8 (Z.shiftr c 24)) ltac:(lia)) as [m1 [-> [L1 [B1 [_ [_ F1]]]]]]. cbn [bind].
  destruct (wr_bit m1 (4 * p + 1) (u8 (Z.shiftr c 16)) ltac:(lia)) as [m2 [-> [L2 [B2 [_ [_ F2]]]]]]. cbn [bind].
  destruct (wr_bit m2 (4 * p + 2) (u8 (Z.shiftr c 8)) ltac:(lia)) as [m3 [-> [L3 [B3 [_ [_ F3]]]]]]. cbn [bind].
  destruct (wr_bit m3 (4 * p + 3) (u8 c) ltac:(lia)) as [m4 [-> [L4 [B4 [_ [_ F4]]]]]].
  exists m4. split; [reflexivity|]. split; [lia|]. split; [auto using u8_byte|].
  intros i Hi. rewrite F4, F3, F2, F1 by lia. unfold colour. cbn [Z.eqb Pos.eqb].
  destruct (Z.eqb_spec (i / 32) p) as [Hip|Hip].
  - rewrite testbit_mod by lia.
    destruct (Z.eqb_spec (i / 8) (4 * p + 3)); [|destruct (Z.eqb_spec (i / 8) (4 * p + 2)); [|destruct (Z.eqb_spec (i / 8) (4 * p + 1)); [|destruct (Z.eqb_spec (i / 8) (4 * p)); [|lia]]]].
    + rewrite u8_bit by lia. f_equal. lia.
    + rewrite byte_bit by lia. f_equal. lia.
    + rewrite byte_bit by lia. f_equal. lia.
    + rewrite byte_bit by lia. f_equal. lia.
  - replace (i / 8 =? 4 * p + 3) with false by lia. replace (i / 8 =? 4 * p + 2) with false by lia.
    replace (i / 8 =? 4 * p + 1) with false by lia. replace (i / 8 =? 4 * p) with false by lia. reflexivity.
Qed.

(** the read-modify-write of depths 2 and 4: bit [j] of the new byte *)
Lemma rmw_bit v mask c j :
  0 <= j < 8 ->
  Z.testbit (u8 (Z.lor (u8 (Z.land v (Z.lnot mask))) c)) j =
    (Z.testbit v j && negb (Z.testbit mask j) || Z.testbit c j).
Proof.
  intros H. rewrite u8_bit by lia. rewrite Z.lor_spec, u8_bit by lia. rewrite Z.land_spec, Z.lnot_spec by lia.
  reflexivity.
Qed.

Lemma rmw_ok m o mask c :
  0 <= o < zlen m ->
  exists m', (do v <- rd m o; do m1 <- wr m o (u8 (Z.land v (Z.lnot mask)));
              do c <- c; do v1 <- rd m1 o; wr m1 o (u8 (Z.lor v1 c))) =
             (do c <- c; Ok (m' c)) /\
    forall c, zlen (m' c) = zlen m /\ (bytes m -> bytes (m' c)) /\
      forall i, 0 <= i -> img_bit (m' c) i =
        if i / 8 =? o then
          img_bit m i && negb (Z.testbit mask (7 - i mod 8)) || Z.testbit c (7 - i mod 8)
        else img_bit m i.
Proof.
  intros H. rewrite rdm_ok by lia. cbn [bind].
  destruct (wr_bit m o (u8 (Z.land (nthZ m o) (Z.lnot mask))) H) as [m1 [-> [L1 [B1 [N1 [_ F1]]]]]]. cbn [bind].
  rewrite rdm_ok by lia. rewrite N1.
  exists (fun c => blit m1 o [u8 (Z.lor (u8 (Z.land (nthZ m o) (Z.lnot mask))) c)]).
  split.
  - destruct c as [c| |]; cbn [bind]; try reflexivity. unfold wr, wr_slice. rewrite zlen_1.
    replace (inb (zlen m1) o 1) with true by (symmetry; apply inb_true; lia). reflexivity.
  - intros c'.
    destruct (wr_bit m1 o (u8 (Z.lor (u8 (Z.land (nthZ m o) (Z.lnot mask))) c')) ltac:(lia)) as [m2 [E [L2 [B2 [_ [_ F2]]]]]].
    unfold wr, wr_slice in E. rewrite zlen_1 in E.
    replace (inb (zlen m1) o 1) with true in E by (symmetry; apply inb_true; lia). apply Ok_inj in E. rewrite E.
    split; [lia|]. split; [auto using u8_byte|]. intros i Hi. rewrite F2, F1 by lia.
    destruct (Z.eqb_spec (i / 8) o) as [He|He]; [|reflexivity].
    rewrite rmw_bit by lia. unfold img_bit. rewrite He. reflexivity.
Qed.

Lemma store4 m p x c :
  0 <= p -> x mod 2 = p mod 2 -> 0 <= x -> (p + 1) * 4 <= 8 * zlen m ->
  exists m', store_pixel 4 m (p * 4 / 8) x c = Ok m' /\ stored 4 p c m m'.
Proof.
  intros Hp Hx Hx0 Hl. unfold store_pixel. cbn [Z.eqb Pos.eqb].
  rewrite Z.rem_mod_nonneg by lia. unfold shr.
  replace ((0 <=? x mod 2 * 4) && (x mod 2 * 4 <? 32)) with true by lia. cbn [bind].
  destruct (rmw_ok m (p * 4 / 8) (Z.shiftr 240 (x mod 2 * 4)) (shl32 (Z.land c 15) (4 - x mod 2 * 4)) ltac:(lia)) as [m' [E H]].
  rewrite E. unfold shl32. replace ((0 <=? 4 - x mod 2 * 4) && (4 - x mod 2 * 4 <? 32)) with true by lia. cbn [bind].
  eexists. split; [reflexivity|].
  destruct (H (u32 (Z.shiftl (Z.land c 15) (4 - x mod 2 * 4)))) as [L [B F]].
  split; [exact L|]. split; [exact B|]. intros i Hi. rewrite F by lia. clear F B L H E.
  unfold colour. cbn [Z.eqb Pos.eqb].
  change 15 with (2 ^ 4 - 1). rewrite land_ones' by lia.
  assert (Hsh : forall j, 0 <= j < 8 -> Z.testbit (u32 (Z.shiftl (c mod 2 ^ 4) (4 - x mod 2 * 4))) j =
                       Z.testbit (c mod 2 ^ 4) (j - (4 - x mod 2 * 4))).
  { intros j Hj. unfold u32. change 4294967296 with (2 ^ 32). rewrite Z.mod_pow2_bits_low by lia.
    apply Z.shiftl_spec. lia. }
  destruct (Z.eqb_spec (i / 4) p) as [He|He].
  - replace (i / 8 =? p * 4 / 8) with true by lia. rewrite Hsh by lia.
    assert (Hm : Z.testbit (Z.shiftr 240 (x mod 2 * 4)) (7 - i mod 8) = true).
    { rewrite Z.shiftr_spec by lia.
      assert (Hc : 7 - i mod 8 + x mod 2 * 4 = 4 \/ 7 - i mod 8 + x mod 2 * 4 = 5 \/ 7 - i mod 8 + x mod 2 * 4 = 6 \/ 7 - i mod 8 + x mod 2 * 4 = 7) by lia.
      destruct Hc as [-> | [-> | [-> | ->]]]; reflexivity. }
    rewrite Hm. rewrite andb_false_r. cbn [orb]. f_equal. lia.
  - destruct (Z.eqb_spec (i / 8) (p * 4 / 8)) as [H8|H8]; [|reflexivity].
    rewrite Hsh by lia.
    assert (Hm : Z.testbit (Z.shiftr 240 (x mod 2 * 4)) (7 - i mod 8) = false).
    { rewrite Z.shiftr_spec by lia.
      destruct (Z.eq_dec (x mod 2) 0) as [H0|H0].
      - assert (Hc : 7 - i mod 8 + x mod 2 * 4 = 0 \/ 7 - i mod 8 + x mod 2 * 4 = 1 \/ 7 - i mod 8 + x mod 2 * 4 = 2 \/ 7 - i mod 8 + x mod 2 * 4 = 3) by lia.
        destruct Hc as [-> | [-> | [-> | ->]]]; reflexivity.
      - change 240 with (240 mod 2 ^ 8). apply Z.mod_pow2_bits_high. lia. }
    rewrite Hm, andb_true_r.
    destruct (Z.eq_dec (x mod 2) 0) as [H0|H0].
    + rewrite (Z.testbit_neg_r (c mod 2 ^ 4)) by lia. apply orb_false_r.
    + rewrite (Z.mod_pow2_bits_high c 4) by lia. apply orb_false_r.
Qed.

Lemma draw_addr f x y :
  fb_wf f -> 0 <= x < getWidth f -> 0 <= y < fh f ->
  let p := y * getWidth f + x in
  0 <= p /\ (p + 1) * fd f <= 8 * zlen (buf f) /\ p mod 8 = x mod 8 /\
  (forall c, drawPixel3 f x y c =
     (do m <- store_pixel (fd f) (buf f) (p * fd f / 8) x c; Ok (set_buf f m))).
Proof.
  intros [Ha [Hz _]] Hx Hy p. apply accepted_facts in Ha.
  destruct Ha as [_ [Hh [Hd [_ [Hm [HW [H8 [I1 [I2 [I3 I4]]]]]]]]]]. unfold getWidth in *.
  set (W := effectiveWidth (fw f) (fd f)) in *. rewrite Hz, H8. unfold INT_MAX in *.
  assert (Hp : 0 <= p) by (unfold p; nia).
  assert (Hp1 : p + 1 <= W * fh f) by (unfold p; nia).
  assert (Hd0 : 1 <= fd f) by lia.
  split; [exact Hp|]. split; [nia|]. split.
  { unfold p. replace W with (W / 8 * 8) by lia. rewrite Z.mul_assoc.
    rewrite Z.add_comm, Z.mod_add by lia. reflexivity. }
  intros c. unfold drawPixel3, getWidth. fold W.
  rewrite chk_ok by (unfold INT_MIN, INT_MAX, p in *; nia). cbn [bind].
  rewrite chk_ok by (unfold INT_MIN, INT_MAX, p in *; nia). cbn [bind]. fold p.
  rewrite chk_ok by (unfold INT_MIN, INT_MAX, p in *; nia). cbn [bind].
  rewrite Z.quot_div_nonneg by nia. reflexivity.
Qed.

Lemma draw_ok f x y c :
  fb_wf f -> fd f <> 2 -> 0 <= x < getWidth f -> 0 <= y < fh f ->
  exists m', drawPixel3 f x y c = Ok (set_buf f m') /\
             stored (fd f) (y * getWidth f + x) c (buf f) m'.
Proof.
  intros Hwf H2 Hx Hy. destruct (draw_addr f x y Hwf Hx Hy) as [Hp [Hl [Hm ->]]].
  destruct Hwf as [Ha _]. apply accepted_facts in Ha. destruct Ha as [_ [_ [Hd _]]].
  set (p := y * getWidth f + x) in *.
  assert (H : exists m', store_pixel (fd f) (buf f) (p * fd f / 8) x c = Ok m' /\ stored (fd f) p c (buf f) m').
  { destruct Hd as [Hd|[Hd|[Hd|[Hd|[Hd|[Hd|Hd]]]]]]; rewrite Hd in *; try contradiction.
    - rewrite Z.mul_1_r in *. apply store1; lia.
    - apply store4; lia.
    - apply store8; lia.
    - apply store16; lia.
    - apply store24; lia.
    - apply store32; lia. }
  destruct H as [m' [-> H]]. exists m'. split; [reflexivity|exact H].
Qed.

Lemma set_buf_wf f m' : fb_wf f -> zlen m' = zlen (buf f) -> (bytes (buf f) -> bytes m') -> fb_wf (set_buf f m').
Proof. intros [H1 [H2 H3]] Hl Hb. unfold fb_wf, set_buf. cbn. split; [exact H1|]. split; [lia|auto]. Qed.

(** painting the pixels of a set with one colour *)
Definition painted (d : Z) (P : Z -> Prop) (c : Z) (m m' : list Z) : Prop :=
  zlen m' = zlen m /\ (bytes m -> bytes m') /\
  forall i, 0 <= i ->
    (P (i / d) -> img_bit m' i = Z.testbit (colour d c) (d - 1 - i mod d)) /\
    (~ P (i / d) -> img_bit m' i = img_bit m i).

Lemma stored_painted d p c m m' : stored d p c m m' -> painted d (fun q => q = p) c m m'.
Proof.
  intros [H1 [H2 H3]]. split; [exact H1|]. split; [exact H2|]. intros i Hi. rewrite H3 by lia.
  destruct (Z.eqb_spec (i / d) p); split; intros; try contradiction; auto.
Qed.
Lemma painted_refl d c m : painted d (fun _ => False) c m m.
Proof. split; [reflexivity|]. split; [auto|]. intros i Hi. split; [contradiction|auto]. Qed.
Lemma painted_trans d P Q c m m1 m2 :
  (forall q, {P q} + {~ P q}) -> (forall q, {Q q} + {~ Q q}) ->
  painted d P c m m1 -> painted d Q c m1 m2 -> painted d (fun q => P q \/ Q q) c m m2.
Proof.
  intros DP DQ [A1 [A2 A3]] [B1 [B2 B3]]. split; [lia|]. split; [auto|].
  intros i Hi. destruct (A3 i Hi) as [A4 A5], (B3 i Hi) as [B4 B5]. split.
  - intros H. destruct (DQ (i / d)) as [HQ|HQ]; [auto|]. rewrite B5 by assumption. apply A4. tauto.
  - intros H. rewrite B5 by tauto. apply A5. tauto.
Qed.
Lemma painted_ext d (P Q : Z -> Prop) c m m' :
  (forall i, 0 <= i -> (P (i / d) <-> Q (i / d))) -> painted d P c m m' -> painted d Q c m m'.
Proof.
  intros H [A1 [A2 A3]]. split; [exact A1|]. split; [exact A2|]. intros i Hi. specialize (H i Hi).
  destruct (A3 i Hi). tauto.
Qed.

Lemma clear_col f x c n : forall y,
  fb_wf f -> fd f <> 2 -> 0 <= x < getWidth f -> 0 <= y -> y + Z.of_nat n = fh f ->
  exists m', for_up n y (fun y f => drawPixel3 f x y c) f = Ok (set_buf f m') /\
    painted (fd f) (fun p => exists y', y <= y' < fh f /\ p = y' * getWidth f + x) c (buf f) m'.
Proof.
  revert f. induction n as [|n IH]; intros f y Hwf H2 Hx Hy Hn; cbn [for_up].
  - exists (buf f). split; [destruct f; reflexivity|].
    eapply painted_ext; [|apply painted_refl]. intros i Hi. cbn beta. split; [contradiction|]. intros [y' [H _]]. lia.
  - destruct (draw_ok f x y c Hwf H2 Hx ltac:(lia)) as [m1 [-> S1]]. cbn [bind].
    pose proof (set_buf_wf f m1 Hwf (proj1 S1) (proj1 (proj2 S1))) as Hwf1.
    destruct (IH (set_buf f m1) (y + 1) Hwf1 H2 Hx ltac:(lia) ltac:(cbn [set_buf fh]; lia)) as [m2 [-> P2]].
    exists m2. split; [destruct f; reflexivity|]. cbn [set_buf fd fh buf fw] in P2.
    replace (getWidth (set_buf f m1)) with (getWidth f) in P2 by reflexivity.
    apply stored_painted in S1.
    eapply painted_ext; [|eapply painted_trans; [| |exact S1|exact P2]].
    + intros i Hi. cbn beta. split.
      * intros [->|[y' [Hy' ->]]]; eexists; (split; [|reflexivity]); lia.
      * intros [y' [Hy' He]]. destruct (Z.eq_dec y' y) as [->|Hne]; [left; exact He|].
        right. exists y'. split; [lia|exact He].
    + intros q. apply Z.eq_dec.
    + intros q. destruct (Z_le_dec (y + 1) ((q - x) / getWidth f)) as [A|A].
      * destruct (Z_lt_dec ((q - x) / getWidth f) (fh f)) as [B|B].
        -- destruct (Z.eq_dec ((q - x) mod getWidth f) 0) as [C|C].
           ++ left. exists ((q - x) / getWidth f). split; [lia|].
              pose proof (Z.div_mod (q - x) (getWidth f) ltac:(lia)). lia.
           ++ right. intros [y' [_ ->]]. apply C.
              replace (y' * getWidth f + x - x) with (y' * getWidth f) by ring. apply Z.mod_mul. lia.
        -- right. intros [y' [Hr ->]]. apply B.
           replace (y' * getWidth f + x - x) with (y' * getWidth f) by ring. rewrite Z.div_mul by lia. lia.
      * right. intros [y' [Hr ->]]. apply A.
        replace (y' * getWidth f + x - x) with (y' * getWidth f) by ring. rewrite Z.div_mul by lia. lia.
Qed.

Lemma pix_split W x y x' y' :
  0 <= x < W -> 0 <= x' < W -> y * W + x = y' * W + x' -> x = x' /\ y = y'.
Proof.
  intros Hx Hx' H. assert (y = y').
  { assert (Hd : (y * W + x) / W = (y' * W + x') / W) by (f_equal; exact H).
    rewrite !Z.div_add_l, !Z.div_small in Hd by lia. lia. }
  subst. lia.
Qed.

Lemma clear_cols f c n : forall x,
  fb_wf f -> fd f <> 2 -> 0 <= x -> x + Z.of_nat n = getWidth f ->
  exists m', for_up n x (fun x => for_up (Z.to_nat (fh f)) 0 (fun y f => drawPixel3 f x y c)) f = Ok (set_buf f m') /\
    painted (fd f) (fun p => exists x' y', x <= x' < getWidth f /\ 0 <= y' < fh f /\ p = y' * getWidth f + x') c (buf f) m'.
Proof.
  revert f. induction n as [|n IH]; intros f x Hwf H2 Hx Hn; cbn [for_up].
  - exists (buf f). split; [destruct f; reflexivity|].
    eapply painted_ext; [|apply painted_refl]. intros i Hi. cbn beta. split; [contradiction|]. intros [x' [y' [H _]]]. lia.
  - assert (Hh : 0 <= fh f) by (destruct Hwf as [Ha _]; apply accepted_facts in Ha; tauto).
    destruct (clear_col f x c (Z.to_nat (fh f)) 0 Hwf H2 ltac:(lia) ltac:(lia) ltac:(lia)) as [m1 [-> P1]]. cbn [bind].
    pose proof (set_buf_wf f m1 Hwf (proj1 P1) (proj1 (proj2 P1))) as Hwf1.
    specialize (IH (set_buf f m1) (x + 1) Hwf1 H2 ltac:(lia)).
    replace (getWidth (set_buf f m1)) with (getWidth f) in IH by reflexivity.
    cbn [set_buf fd fh buf fw] in IH. destruct (IH ltac:(lia)) as [m2 [E P2]].
    change (mkFb (fw f) (fh f) (fd f) m1 (selectedColor f)) with (set_buf f m1) in E. rewrite E.
    exists m2. split; [destruct f; reflexivity|].
    eapply painted_ext; [|eapply painted_trans; [| |exact P1|exact P2]].
    + intros i Hi. cbn beta. split.
      * intros [[y' [Hy' ->]]|[x' [y' [Hx' [Hy' ->]]]]].
        -- exists x, y'. repeat split; lia.
        -- exists x', y'. repeat split; lia.
      * intros [x' [y' [Hx' [Hy' He]]]]. destruct (Z.eq_dec x' x) as [->|Hne].
        -- left. exists y'. auto.
        -- right. exists x', y'. repeat split; try lia; exact He.
    + intros q. destruct (Z_le_dec 0 ((q - x) / getWidth f)) as [A|A].
      * destruct (Z_lt_dec ((q - x) / getWidth f) (fh f)) as [B|B].
        -- destruct (Z.eq_dec ((q - x) mod getWidth f) 0) as [C|C].
           ++ left. exists ((q - x) / getWidth f). split; [lia|].
              pose proof (Z.div_mod (q - x) (getWidth f) ltac:(lia)). lia.
           ++ right. intros [y' [_ ->]]. apply C.
              replace (y' * getWidth f + x - x) with (y' * getWidth f) by ring. apply Z.mod_mul. lia.
        -- right. intros [y' [Hr ->]]. apply B.
           replace (y' * getWidth f + x - x) with (y' * getWidth f) by ring. rewrite Z.div_mul by lia. lia.
      * right. intros [y' [Hr ->]]. apply A.
        replace (y' * getWidth f + x - x) with (y' * getWidth f) by ring. rewrite Z.div_mul by lia. lia.
    + intros q. set (W := getWidth f) in *. assert (HW : 0 < W) by lia.
      destruct (Z_le_dec (x + 1) (q mod W)) as [A|A].
      * destruct (Z_le_dec 0 (q / W)) as [B|B]; [destruct (Z_lt_dec (q / W) (fh f)) as [C|C]|].
        -- left. exists (q mod W), (q / W). pose proof (Z.mod_pos_bound q W HW). pose proof (Z.div_mod q W ltac:(lia)).
           repeat split; lia.
        -- right. intros [x' [y' [Hx' [Hy' ->]]]]. apply C. rewrite Z.div_add_l, Z.div_small by lia. lia.
        -- right. intros [x' [y' [Hx' [Hy' ->]]]]. apply B. rewrite Z.div_add_l, Z.div_small by lia. lia.
      * right. intros [x' [y' [Hx' [Hy' ->]]]]. apply A.
        rewrite (Z.add_comm (y' * W)), Z.mod_add, Z.mod_small by lia. lia.
Qed.

Lemma clear_ok f c :
  fb_wf f -> fd f <> 2 ->
  exists m', clear f c = Ok (set_buf f m') /\ zlen m' = zlen (buf f) /\ bytes m' /\
    forall i, 0 <= i < 8 * zlen (buf f) ->
      img_bit m' i = Z.testbit (colour (fd f) c) (fd f - 1 - i mod fd f).
Proof.
  intros Hwf H2. pose proof Hwf as [Ha [Hz Hb]]. apply accepted_facts in Ha.
  destruct Ha as [_ [Hh [Hd [_ [Hm [HW [H8 _]]]]]]].
  unfold clear. destruct (clear_cols f c (Z.to_nat (getWidth f)) 0 Hwf H2 ltac:(lia)) as [m' [E [P1 [P2 P3]]]].
  { unfold getWidth. lia. }
  exists m'. split; [exact E|]. split; [exact P1|]. split; [auto|].
  intros i Hi. apply P3; [lia|]. rewrite Hz, H8 in Hi. unfold getWidth.
  set (W := effectiveWidth (fw f) (fd f)) in *.
  assert (Hd0 : 1 <= fd f) by lia.
  assert (Hp : 0 <= i / fd f < W * fh f).
  { split; [apply Z.div_pos; lia|]. apply Z.div_lt_upper_bound; lia. }
  assert (HW0 : 0 < W) by nia.
  exists (i / fd f mod W), (i / fd f / W).
  pose proof (Z.mod_pos_bound (i / fd f) W HW0). pose proof (Z.div_mod (i / fd f) W ltac:(lia)).
  split; [lia|]. split; [|lia]. split; [apply Z.div_pos; lia|]. apply Z.div_lt_upper_bound; lia.
Qed.

Lemma bits_val_testbit l i n c :
  (forall k, 0 <= k < Z.of_nat n -> img_bit l (i + k) = Z.testbit c (Z.of_nat n - 1 - k)) ->
  bits_val l i n = c mod 2 ^ Z.of_nat n.
Proof.
  revert c. induction n as [|n IH]; intros c H.
  - cbn [bits_val]. change (2 ^ Z.of_nat 0) with 1. symmetry. apply Z.mod_1_r.
  - cbn [bits_val]. rewrite (IH (c / 2)).
    + rewrite (H (Z.of_nat n)) by lia.
      replace (Z.of_nat (S n) - 1 - Z.of_nat n) with 0 by lia. rewrite Z.bit0_odd.
      replace (Z.of_nat (S n)) with (1 + Z.of_nat n) by lia. rewrite Z.pow_add_r by lia. change (2 ^ 1) with 2.
      rewrite (Z.rem_mul_r c 2) by lia. rewrite (Zmod_odd c). destruct (Z.odd c); lia.
    + intros k Hk. rewrite H by lia. rewrite <- Z.shiftr_div_pow2 with (n := 1) by lia.
      rewrite Z.shiftr_spec by lia. f_equal. lia.
Qed.
Lemma bits_val_ext l l' i n :
  (forall k, 0 <= k < Z.of_nat n -> img_bit l (i + k) = img_bit l' (i + k)) -> bits_val l i n = bits_val l' i n.
Proof.
  induction n as [|n IH]; intros H; [reflexivity|]. cbn [bits_val]. rewrite IH, H by (intros; try apply H; lia).
  reflexivity.
Qed.

Lemma colour_range d c : 1 <= d -> 0 <= c -> 0 <= colour d c < 2 ^ d.
Proof.
  intros Hd Hc. unfold colour. destruct (Z.eqb_spec d 1) as [->|_].
  - destruct (c =? 0); lia.
  - apply Z.mod_pos_bound. apply Z.pow_pos_nonneg; lia.
Qed.

Lemma bit_pos d p k : 1 <= d -> 0 <= k < d -> (p * d + k) / d = p /\ (p * d + k) mod d = k.
Proof.
  intros Hd Hk. split; [rewrite Z.div_add_l, Z.div_small by lia; lia|].
  rewrite Z.add_comm, Z.mod_add, Z.mod_small by lia. reflexivity.
Qed.

Lemma stored_pixel d p c m m' W x y :
  1 <= d -> 0 <= c -> 0 <= y * W + x -> stored d p c m m' ->
  pixel m' W d x y = if y * W + x =? p then colour d c else pixel m W d x y.
Proof.
  intros Hd Hc Hp [_ [_ H]]. unfold pixel. destruct (Z.eqb_spec (y * W + x) p) as [E|E].
  - rewrite (bits_val_testbit _ _ _ (colour d c)).
    + rewrite Z2Nat.id by lia. apply Z.mod_small. apply colour_range; lia.
    + intros k Hk. rewrite Z2Nat.id in * by lia. rewrite H by nia.
      destruct (bit_pos d (y * W + x) k ltac:(lia) ltac:(lia)) as [-> ->].
      rewrite E, Z.eqb_refl. f_equal.
  - apply bits_val_ext. intros k Hk. rewrite Z2Nat.id in * by lia. rewrite H by nia.
    destruct (bit_pos d (y * W + x) k ltac:(lia) ltac:(lia)) as [-> ->].
    replace (y * W + x =? p) with false by lia. reflexivity.
Qed.

(** every bit of the image belongs to exactly one pixel *)
Lemma bit_cover W h d n i :
  1 <= d -> 8 * n = W * h * d -> 0 <= i < 8 * n -> 0 <= W -> 0 <= h ->
  exists x y k, 0 <= x < W /\ 0 <= y < h /\ 0 <= k < d /\ i = (y * W + x) * d + k.
Proof.
  intros Hd Hn Hi HW Hh. rewrite Hn in Hi.
  assert (Hp : 0 <= i / d < W * h).
  { split; [apply Z.div_pos; lia|]. apply Z.div_lt_upper_bound; lia. }
  assert (HW0 : 0 < W) by nia.
  exists (i / d mod W), (i / d / W), (i mod d).
  pose proof (Z.mod_pos_bound (i / d) W HW0). pose proof (Z.div_mod (i / d) W ltac:(lia)).
  pose proof (Z.mod_pos_bound i d ltac:(lia)). pose proof (Z.div_mod i d ltac:(lia)).
  split; [lia|]. split; [split; [apply Z.div_pos; lia|apply Z.div_lt_upper_bound; lia]|]. split; [lia|].
  rewrite (Z.mul_comm _ W), <- H0. lia.
Qed.

(** ** Depth 2 *)
Lemma store2_left m p x c :
  0 <= p -> x mod 4 = p mod 4 -> x mod 4 < 2 -> 0 <= x -> (p + 1) * 2 <= 8 * zlen m ->
  exists m', store_pixel 2 m (p * 2 / 8) x c = Ok m' /\ zlen m' = zlen m /\ (bytes m -> bytes m') /\
    forall i, 0 <= i -> img_bit m' i =
      if i / 2 =? p then false
      else if i / 2 =? p + 2 then img_bit m i || Z.testbit c (1 - i mod 2)
      else img_bit m i.
Proof.
  intros Hp Hx Hx2 Hx0 Hl. unfold store_pixel. cbn [Z.eqb Pos.eqb].
  rewrite Z.rem_mod_nonneg by lia. unfold shr.
  replace ((0 <=? x mod 4 * 2) && (x mod 4 * 2 <? 32)) with true by lia. cbn [bind].
  destruct (rmw_ok m (p * 2 / 8) (Z.shiftr 192 (x mod 4 * 2)) (shl32 (Z.land c 3) (2 - x mod 4 * 2)) ltac:(lia)) as [m' [E H]].
  rewrite E. unfold shl32. replace ((0 <=? 2 - x mod 4 * 2) && (2 - x mod 4 * 2 <? 32)) with true by lia. cbn [bind].
  eexists. split; [reflexivity|].
  destruct (H (u32 (Z.shiftl (Z.land c 3) (2 - x mod 4 * 2)))) as [L [B F]].
  split; [exact L|]. split; [exact B|]. intros i Hi. rewrite F by lia. clear F B L H E.
  change 3 with (2 ^ 2 - 1). rewrite land_ones' by lia.
  assert (Hsh : forall j, 0 <= j < 8 -> Z.testbit (u32 (Z.shiftl (c mod 2 ^ 2) (2 - x mod 4 * 2))) j =
                       Z.testbit (c mod 2 ^ 2) (j - (2 - x mod 4 * 2))).
  { intros j Hj. unfold u32. change 4294967296 with (2 ^ 32). rewrite Z.mod_pow2_bits_low by lia.
    apply Z.shiftl_spec. lia. }
  assert (Hmk : forall j, 0 <= j < 8 -> Z.testbit (Z.shiftr 192 (x mod 4 * 2)) j = (6 - x mod 4 * 2 <=? j) && (j <=? 7 - x mod 4 * 2)).
  { intros j Hj. rewrite Z.shiftr_spec by lia. assert (Hc : x mod 4 = 0 \/ x mod 4 = 1) by lia.
    assert (Hj' : j = 0 \/ j = 1 \/ j = 2 \/ j = 3 \/ j = 4 \/ j = 5 \/ j = 6 \/ j = 7) by lia.
    destruct Hc as [-> | ->]; destruct Hj' as [-> | [-> | [-> | [-> | [-> | [-> | [-> | ->]]]]]]]; reflexivity. }
  destruct (Z.eqb_spec (i / 8) (p * 2 / 8)) as [H8|H8].
  - rewrite Hsh, Hmk by lia.
    destruct (Z.eqb_spec (i / 2) p) as [He|He].
    + replace ((6 - x mod 4 * 2 <=? 7 - i mod 8) && (7 - i mod 8 <=? 7 - x mod 4 * 2)) with true by lia.
      rewrite andb_false_r. cbn [orb]. apply Z.mod_pow2_bits_high. lia.
    + replace ((6 - x mod 4 * 2 <=? 7 - i mod 8) && (7 - i mod 8 <=? 7 - x mod 4 * 2)) with false by lia.
      rewrite andb_true_r.
      destruct (Z.eqb_spec (i / 2) (p + 2)) as [He2|He2].
      * rewrite Z.mod_pow2_bits_low by lia. do 2 f_equal. lia.
      * destruct (Z_lt_dec (7 - i mod 8 - (2 - x mod 4 * 2)) 0).
        -- rewrite Z.testbit_neg_r by lia. apply orb_false_r.
        -- rewrite Z.mod_pow2_bits_high by lia. apply orb_false_r.
  - replace (i / 2 =? p) with false by lia. replace (i / 2 =? p + 2) with false by lia. reflexivity.
Qed.

Lemma store2_right m p x c :
  0 <= p -> x mod 4 = p mod 4 -> 2 <= x mod 4 -> 0 <= x -> (p + 1) * 2 <= 8 * zlen m ->
  store_pixel 2 m (p * 2 / 8) x c = UB.
Proof.
  intros Hp Hx Hx2 Hx0 Hl. unfold store_pixel. cbn [Z.eqb Pos.eqb].
  rewrite Z.rem_mod_nonneg by lia. unfold shr.
  replace ((0 <=? x mod 4 * 2) && (x mod 4 * 2 <? 32)) with true by lia. cbn [bind].
  destruct (rmw_ok m (p * 2 / 8) (Z.shiftr 192 (x mod 4 * 2)) (shl32 (Z.land c 3) (2 - x mod 4 * 2)) ltac:(lia)) as [m' [E H]].
  rewrite E. unfold shl32. replace ((0 <=? 2 - x mod 4 * 2) && (2 - x mod 4 * 2 <? 32)) with false by lia. reflexivity.
Qed.

Lemma img_ext (a b : list Z) :
  bytes a -> bytes b -> zlen a = zlen b ->
  (forall i, 0 <= i < 8 * zlen a -> img_bit a i = img_bit b i) -> a = b.
Proof.
  intros Ha Hb Hl H. apply list_extZ; [exact Hl|]. intros i Hi.
  pose proof (nthZ_byte a i Ha) as Ba. pose proof (nthZ_byte b i Hb) as Bb.
  apply Z.bits_inj'. intros j Hj. destruct (Z_lt_dec j 8) as [Hj8|Hj8].
  - specialize (H (8 * i + (7 - j)) ltac:(lia)). unfold img_bit in H.
    replace ((8 * i + (7 - j)) / 8) with i in H by lia.
    replace (7 - (8 * i + (7 - j)) mod 8) with j in H by lia. exact H.
  - rewrite <- (Z.mod_small (nthZ a i) (2 ^ 8)) by lia. rewrite <- (Z.mod_small (nthZ b i) (2 ^ 8)) by lia.
    rewrite !Z.mod_pow2_bits_high by lia. reflexivity.
Qed.

Lemma setColor_ok f c :
  0 <= fd f < 31 -> 0 <= c ->
  setColor f c = Ok (mkFb (fw f) (fh f) (fd f) (buf f) (c mod 2 ^ fd f)).
Proof.
  intros Hd Hc. unfold setColor, shl1. replace ((0 <=? fd f) && (fd f <? 31)) with true by lia. cbn [bind].
  do 2 f_equal. unfold u32. rewrite (Z.mod_small (2 ^ fd f - 1)).
  - apply land_ones'. lia.
  - assert (2 ^ fd f <= 2 ^ 30) by (apply Z.pow_le_mono_r; lia).
    assert (0 < 2 ^ fd f) by (apply Z.pow_pos_nonneg; lia). lia.
Qed.
