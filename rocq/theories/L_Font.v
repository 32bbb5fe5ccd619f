(** Lemmas about the font model. *)
From Verif Require Import Base S_Graphics S_Ranges S_Font S_Paint M_Geometry M_FrameBuffer M_Canvas M_Font L_Geometry L_FrameBuffer L_Canvas L_Circle L_Paint.
Ltac Zify.zify_post_hook ::= Z.div_mod_to_equations.

(** ** Lookup *)
Lemma as_char_own sg c : 0 <= c < 256 -> own_value sg c -> as_char sg c = c.
Proof.
  intros Hc [->|H]; [reflexivity|]. unfold as_char. destruct sg; [|reflexivity]. unfold s8.
  rewrite Z.mod_small by lia. replace (c <? 128) with true by lia. reflexivity.
Qed.
Lemma as_char_neg sg c : 0 <= c < 256 -> ~ own_value sg c -> as_char sg c < 0.
Proof.
  intros Hc H. unfold own_value in H. destruct sg; [|exfalso; auto]. unfold as_char, s8.
  rewrite Z.mod_small by lia. replace (c <? 128) with false by lia. lia.
Qed.
Lemma own_dec sg c : {own_value sg c} + {~ own_value sg c}.
Proof.
  unfold own_value. destruct sg; [|left; auto]. destruct (Z_lt_dec c 128); [left; auto|right; intros [H|H]; [discriminate|auto]].
Qed.
Lemma has_entry_dec sg f c : {has_entry sg f c} + {~ has_entry sg f c}.
Proof.
  unfold has_entry. destruct (own_dec sg c); [|right; tauto].
  destruct (Z_le_dec (first f) c); [|right; lia]. destruct (Z_le_dec c (last f)); [|right; lia].
  destruct (Z_le_dec 0 (slot (first f) c)); [|right; lia].
  destruct (Z_lt_dec (slot (first f) c) (zlen (glyphs f))); [left; tauto|right; lia].
Qed.

Lemma glyphIndex_hit fuel sg f c :
  0 <= c < 256 -> has_entry sg f c -> glyphIndex (S fuel) sg f (as_char sg c) = Ok (slot (first f) c).
Proof.
  intros Hc [H1 [H2 H3]]. rewrite (as_char_own sg c Hc H1). cbn [glyphIndex]. unfold slot in *.
  replace ((c <? first f) || (c >? last f)) with false by lia.
  destruct (Z.ltb_spec c 127).
  - replace (c >? 126) with false by lia. replace ((c - first f <? 0) || (c - first f >=? zlen (glyphs f))) with false by lia. reflexivity.
  - replace (c >? 126) with true by lia. replace (c - first f - (160 - 126 - 1)) with (c - first f - 33) by lia.
    replace ((c - first f - 33 <? 0) || (c - first f - 33 >=? zlen (glyphs f))) with false by lia. reflexivity.
Qed.
Lemma glyphIndex_miss fuel sg f c :
  font_typed f -> 0 <= c < 256 -> ~ has_entry sg f c ->
  glyphIndex (S fuel) sg f (as_char sg c) = glyphIndex fuel sg f (as_char sg (first f)).
Proof.
  intros Hf Hc Hn. cbn [glyphIndex]. destruct (own_dec sg c) as [Ho|Ho].
  - rewrite (as_char_own sg c Hc Ho). assert (Hn' : ~ (first f <= c <= last f /\ 0 <= slot (first f) c < zlen (glyphs f))) by (unfold has_entry in Hn; tauto). clear Hn. destruct ((c <? first f) || (c >? last f)) eqn:E; [reflexivity|].
    unfold slot in Hn'. destruct (Z.ltb_spec c 127).
    + replace (c >? 126) with false by lia. replace ((c - first f <? 0) || (c - first f >=? zlen (glyphs f))) with true by lia. reflexivity.
    + replace (c >? 126) with true by lia. replace (c - first f - (160 - 126 - 1)) with (c - first f - 33) by lia.
      replace ((c - first f - 33 <? 0) || (c - first f - 33 >=? zlen (glyphs f))) with true by lia. reflexivity.
  - pose proof (as_char_neg sg c Hc Ho). destruct Hf as [Hf _]. replace (as_char sg c <? first f) with true by lia. reflexivity.
Qed.
Lemma glyphIndex_loop fuel sg f :
  font_typed f -> ~ has_entry sg f (first f) -> glyphIndex fuel sg f (as_char sg (first f)) = Fuel.
Proof.
  intros Hf Hn. induction fuel as [|fuel IH]; [reflexivity|]. rewrite glyphIndex_miss; auto. apply Hf.
Qed.

Lemma in_count_up n : forall a x, In x (count_up n a) <-> a <= x < a + Z.of_nat n.
Proof. induction n as [|n IH]; intros a x; cbn [count_up In]; [lia|]. rewrite IH. lia. Qed.

Lemma stored_low n : forall a c, a <= c -> c < 127 -> c < a + Z.of_nat n ->
  nth_error (filter (fun c => (c <? 0x7F) || (0x9F <? c)) (count_up n a)) (Z.to_nat (c - a)) = Some c.
Proof.
  induction n as [|n IH]; intros a c H1 H2 H3; [lia|]. cbn [count_up filter].
  replace ((a <? 127) || (159 <? a)) with true by lia. destruct (Z.eq_dec c a) as [->|Hne].
  - rewrite Z.sub_diag. reflexivity.
  - replace (Z.to_nat (c - a)) with (S (Z.to_nat (c - (a + 1)))) by lia. cbn [nth_error]. apply IH; lia.
Qed.
Lemma stored_high n : forall a c, 160 <= a -> a <= c -> c < a + Z.of_nat n ->
  nth_error (filter (fun c => (c <? 0x7F) || (0x9F <? c)) (count_up n a)) (Z.to_nat (c - a)) = Some c.
Proof.
  induction n as [|n IH]; intros a c H1 H2 H3; [lia|]. cbn [count_up filter].
  replace ((a <? 127) || (159 <? a)) with true by lia. destruct (Z.eq_dec c a) as [->|Hne].
  - rewrite Z.sub_diag. reflexivity.
  - replace (Z.to_nat (c - a)) with (S (Z.to_nat (c - (a + 1)))) by lia. cbn [nth_error]. apply IH; lia.
Qed.
Lemma stored_mid n : forall a c, 127 <= a <= 160 -> 160 <= c -> c < a + Z.of_nat n ->
  nth_error (filter (fun c => (c <? 0x7F) || (0x9F <? c)) (count_up n a)) (Z.to_nat (c - 160)) = Some c.
Proof.
  induction n as [|n IH]; intros a c H1 H2 H3; [lia|]. destruct (Z.eq_dec a 160) as [->|Hne]; [apply stored_high; lia|].
  cbn [count_up filter]. replace ((a <? 127) || (159 <? a)) with false by lia. apply IH; lia.
Qed.
Lemma stored_all n : forall a c, a <= 127 -> 160 <= c -> c < a + Z.of_nat n ->
  nth_error (filter (fun c => (c <? 0x7F) || (0x9F <? c)) (count_up n a)) (Z.to_nat (c - a - 33)) = Some c.
Proof.
  induction n as [|n IH]; intros a c H1 H2 H3; [lia|]. destruct (Z.eq_dec a 127) as [->|Hne].
  - replace (c - 127 - 33) with (c - 160) by lia. apply stored_mid; lia.
  - cbn [count_up filter]. replace ((a <? 127) || (159 <? a)) with true by lia.
    replace (Z.to_nat (c - a - 33)) with (S (Z.to_nat (c - (a + 1) - 33))) by lia. cbn [nth_error]. apply IH; lia.
Qed.
Lemma stored_slot fst_ lst c :
  fst_ <= 127 -> fst_ <= c <= lst -> ~ (127 <= c <= 159) ->
  0 <= slot fst_ c /\ nth_error (font_codes fst_ lst) (Z.to_nat (slot fst_ c)) = Some c.
Proof.
  intros H1 H2 H3. unfold slot, font_codes. destruct (Z.ltb_spec c 127).
  - split; [lia|]. apply stored_low; lia.
  - split; [lia|]. apply stored_all; lia.
Qed.

(** ** The bitmap of a glyph *)
Lemma glyphAt_end f : glyphAt f (zlen (glyphs f)) = UB.
Proof.
  unfold glyphAt. pose proof (zlen_nonneg (glyphs f)). replace (zlen (glyphs f) <? 0) with false by lia.
  replace (nth_error (glyphs f) (Z.to_nat (zlen (glyphs f)))) with (@None glyph); [reflexivity|].
  symmetry. apply nth_error_None. unfold zlen. lia.
Qed.
Lemma bitmapOf_last f k : k + 1 = zlen (glyphs f) -> bitmapOf f k = UB.
Proof.
  intros H. unfold bitmapOf. destruct (glyphAt f k) as [g| |] eqn:E; cbn [bind]; [|reflexivity|].
  - unfold bitmapPtr, guard. destruct (goff g <=? zlen (bitmap f)); [|reflexivity]. cbn [bind].
    rewrite H, Z.eqb_refl. cbn [negb]. rewrite glyphAt_end. reflexivity.
  - unfold glyphAt in E. destruct (k <? 0); [discriminate|]. destruct (nth_error _ _); discriminate.
Qed.
Lemma bitmapOf_inner f k g :
  0 <= k -> k + 1 < zlen (glyphs f) -> nth_error (glyphs f) (Z.to_nat k) = Some g ->
  bitmapOf f k = if goff g <=? zlen (bitmap f)
                 then Ok (mkCB (goff g) (u16 (zlen (bitmap f) - goff g)) (gw g) (gh g) (gox g) (goy g) (gshift g))
                 else UB.
Proof.
  intros H1 H2 E. unfold bitmapOf, glyphAt. replace (k <? 0) with false by lia. rewrite E. cbn [bind].
  unfold bitmapPtr, guard. destruct (goff g <=? zlen (bitmap f)); [|reflexivity]. cbn [bind].
  replace (k + 1 =? zlen (glyphs f)) with false by lia. reflexivity.
Qed.
Lemma bitmapOf_typed f k g : font_typed f -> bitmapOf f k = Ok g ->
  0 <= cstart g <= zlen (bitmap f) /\ 0 <= ew g < 256 /\ 0 <= eh g < 256 /\ 0 <= cwidth g < 256 /\
  -128 <= cox g < 128 /\ -128 <= coy g < 128.
Proof.
  intros [_ [_ [_ Hg]]] E. unfold bitmapOf in E. apply bind_inv in E. destruct E as [gl [E1 E]].
  apply bind_inv in E. destruct E as [b [E2 E]]. apply bind_inv in E. destruct E as [e [E3 E]].
  apply Ok_inj in E. subst g. cbn [cstart ew eh cox coy cwidth].
  assert (HT : glyph_typed gl).
  { unfold glyphAt in E1. destruct (k <? 0); [discriminate|]. destruct (nth_error (glyphs f) (Z.to_nat k)) eqn:E; [|discriminate].
    apply Ok_inj in E1. subst. apply nth_error_In in E. rewrite Forall_forall in Hg. auto. }
  unfold bitmapPtr, guard in E2. destruct (Z.leb_spec (goff gl) (zlen (bitmap f))); [|discriminate]. apply Ok_inj in E2. subst b.
  unfold glyph_typed in HT. lia.
Qed.

(** ** Drawing a glyph *)
Lemma bit_land b k : 0 <= k < 8 -> negb (Z.land b (Z.shiftr 128 k) =? 0) = Z.testbit b (7 - k).
Proof.
  intros Hk. change 128 with (2 ^ 7). rewrite Z.shiftr_div_pow2 by lia. rewrite <- Z.pow_sub_r by lia.
  destruct (Z.eqb_spec (Z.land b (2 ^ (7 - k))) 0) as [E|E]; cbn [negb].
  - assert (H : Z.testbit (Z.land b (2 ^ (7 - k))) (7 - k) = false) by (rewrite E; apply Z.bits_0).
    rewrite Z.land_spec, Z.pow2_bits_true, andb_true_r in H by lia. auto.
  - destruct (Z.testbit b (7 - k)) eqn:T; [reflexivity|]. exfalso. apply E. apply Z.bits_inj'. intros n Hn.
    rewrite Z.land_spec, Z.bits_0, Z.pow2_bits_eqb by lia. destruct (Z.eqb_spec (7 - k) n) as [<-|]; [rewrite T; reflexivity|apply andb_false_r].
Qed.


(** plotting one point of a glyph *)
Definition plot (c : canvas) (shifts pos : pt) (i j : Z) : res (list pt) :=
  do p <- pt_add pos (i, j); do q <- mat_mul (getTransformMatrix c) p; do a <- pt_add q shifts; Ok [a].

Section Glyph.
Variable c : canvas.
Variable shifts : pt.
Variable pos : pt.

Lemma next_ptr k s : 0 <= k -> (if Z.rem k 8 =? 7 then s + k / 8 + 1 else s + k / 8) = s + (k + 1) / 8.
Proof. intros Hk. rewrite Z.rem_mod_nonneg by lia. destruct (Z.eqb_spec (k mod 8) 7); lia. Qed.

Lemma glyphRow_ok bits s w n : forall i j,
  0 <= i -> i + Z.of_nat n = w -> w < 256 -> 0 <= j < 256 -> 0 <= s ->
  (forall i', i <= i' < w -> s + (i' + j * w) / 8 < zlen bits) ->
  (forall i', i <= i' < w -> img_bit bits (8 * s + j * w + i') = true -> plot c shifts pos i' j = Ok [phys c (fst pos + i', snd pos + j)]) ->
  exists l, glyphRow n (getTransformMatrix c) shifts pos bits w i j (s + (i + j * w) / 8)
            = Ok (l, s + (w + j * w) / 8) /\
    forall q, In q l <-> exists i', i <= i' < w /\ q = phys c (fst pos + i', snd pos + j) /\
                          img_bit bits (8 * s + j * w + i') = true.
Proof.
  induction n as [|n IH]; intros i j Hi Hn Hw Hj Hs0 Hin Hplot; cbn [glyphRow].
  - exists []. replace i with w by lia. split; [reflexivity|]. intros q. cbn [In]. split; [tauto|]. intros [i' [H _]]. lia.
  - rewrite rd_ok by (pose proof (Hin i ltac:(lia)); nia). cbn [bind].
    rewrite next_ptr by nia. rewrite Z.rem_mod_nonneg by nia. rewrite bit_land by lia.
    destruct (IH (i + 1) j) as [l [E F]]; [lia|lia|lia|lia|lia|intros; apply Hin; lia|intros; apply Hplot; [lia|assumption]|].
    replace (i + 1 + j * w) with (i + j * w + 1) in E by lia.
    assert (HB : Z.testbit (nthZ bits (s + (i + j * w) / 8)) (7 - (i + j * w) mod 8) = img_bit bits (8 * s + j * w + i)).
    { unfold img_bit. replace ((8 * s + j * w + i) / 8) with (s + (i + j * w) / 8) by lia.
      replace ((8 * s + j * w + i) mod 8) with ((i + j * w) mod 8) by lia. reflexivity. }
    rewrite HB. destruct (img_bit bits (8 * s + j * w + i)) eqn:B.
    + fold (plot c shifts pos i j). rewrite (Hplot i ltac:(lia) B). cbn [bind]. rewrite E. cbn [bind]. eexists. split; [reflexivity|].
      intros q. cbn [app In]. rewrite F. split.
      * intros [<-|[i' [A C]]]; [exists i; split; [lia|auto]|exists i'; split; [lia|auto]].
      * intros [i' [A [C D]]]. destruct (Z.eq_dec i' i) as [->|]; [left; auto|right; exists i'; split; [lia|auto]].
    + cbn [bind]. rewrite E. cbn [bind]. eexists. split; [reflexivity|].
      intros q. cbn [app In]. rewrite F. split.
      * intros [i' [A C]]. exists i'. split; [lia|auto].
      * intros [i' [A [C D]]]. destruct (Z.eq_dec i' i) as [->|]; [congruence|exists i'; split; [lia|auto]].
Qed.

Lemma glyphRows_ok bits s w n : forall j,
  0 <= j -> j + Z.of_nat n < 256 -> 0 <= w < 256 -> 0 <= s ->
  (forall k, 0 <= k < (j + Z.of_nat n) * w -> s + k / 8 < zlen bits) ->
  (forall i' j', 0 <= i' < w -> j <= j' < j + Z.of_nat n -> img_bit bits (8 * s + j' * w + i') = true ->
     plot c shifts pos i' j' = Ok [phys c (fst pos + i', snd pos + j')]) ->
  exists l, glyphRows n (getTransformMatrix c) shifts pos bits w j (s + j * w / 8) = Ok l /\
    forall q, In q l <-> exists i j', 0 <= i < w /\ j <= j' < j + Z.of_nat n /\ q = phys c (fst pos + i, snd pos + j') /\
                          img_bit bits (8 * s + j' * w + i) = true.
Proof.
  induction n as [|n IH]; intros j Hj Hn Hw Hs0 Hin Hplot; cbn [glyphRows].
  - exists []. split; [reflexivity|]. intros q. cbn [In]. split; [tauto|]. intros [i [j' [_ [H _]]]]. lia.
  - destruct (glyphRow_ok bits s w (Z.to_nat w) 0 j) as [l [E F]]; [lia|lia|lia|lia|lia| | |].
    { intros i' Hi'. apply Hin. nia. }
    { intros i' Hi'. apply Hplot; lia. }
    rewrite Z.add_0_l in E. rewrite E. cbn [bind]. replace (w + j * w) with ((j + 1) * w) by lia.
    destruct (IH (j + 1)) as [l2 [E2 F2]]; [lia|lia|lia|lia|intros k Hk; apply Hin; nia|intros i' j' Hi' Hj'; apply Hplot; lia|].
    rewrite E2. cbn [bind]. eexists. split; [reflexivity|]. intros q. rewrite in_app_iff, F, F2. split.
    + intros [[i' [A [B C]]]|[i' [j' [A [B C]]]]].
      * exists i', j. split; [lia|]. split; [lia|]. auto.
      * exists i', j'. split; [lia|]. split; [lia|]. exact C.
    + intros [i' [j' [A [B C]]]]. destruct (Z.eq_dec j' j) as [->|].
      * left. exists i'. split; [lia|exact C].
      * right. exists i', j'. split; [lia|]. split; [lia|exact C].
Qed.
End Glyph.

(** reading beyond the data is the only way to fail, and is not avoided *)
Lemma glyphRow_reads m shifts pos bits s w n : forall i j l p,
  0 <= i -> i + Z.of_nat n = w -> 0 <= j -> 0 <= s ->
  glyphRow n m shifts pos bits w i j (s + (i + j * w) / 8) = Ok (l, p) ->
  p = s + (w + j * w) / 8 /\ forall i', i <= i' < w -> s + (i' + j * w) / 8 < zlen bits.
Proof.
  induction n as [|n IH]; intros i j l p Hi Hn Hj Hs E; cbn [glyphRow] in E.
  - apply Ok_inj in E. injection E as <- <-. replace i with w by lia. split; [reflexivity|]. intros; lia.
  - apply bind_inv in E. destruct E as [b [E1 E]]. apply bind_inv in E. destruct E as [ps [E2 E]].
    rewrite next_ptr in E by nia. apply bind_inv in E. destruct E as [[l2 p2] [E3 E]].
    apply Ok_inj in E. injection E as <- <-. replace (i + j * w + 1) with (i + 1 + j * w) in E3 by lia.
    apply IH in E3; [|lia|lia|lia|lia]. destruct E3 as [-> E3]. split; [reflexivity|].
    intros i' Hi'. destruct (Z.eq_dec i' i) as [->|]; [|apply E3; lia].
    unfold rd in E1. destruct (inb (zlen bits) (s + (i + j * w) / 8) 1) eqn:B; [|discriminate].
    apply inb_true in B. lia.
Qed.
Lemma glyphRows_reads m shifts pos bits s w n : forall j l,
  0 <= w -> 0 <= j -> 0 <= s ->
  glyphRows n m shifts pos bits w j (s + j * w / 8) = Ok l ->
  forall i' j', 0 <= i' < w -> j <= j' < j + Z.of_nat n -> s + (i' + j' * w) / 8 < zlen bits.
Proof.
  induction n as [|n IH]; intros j l Hw Hj Hs E i' j' Hi' Hj'; [lia|]. cbn [glyphRows] in E.
  apply bind_inv in E. destruct E as [[l1 p1] [E1 E]]. apply bind_inv in E. destruct E as [l2 [E2 E]].
  replace (s + j * w / 8) with (s + (0 + j * w) / 8) in E1 by reflexivity.
  apply glyphRow_reads in E1; [|lia|lia|lia|lia]. destruct E1 as [-> E1].
  destruct (Z.eq_dec j' j) as [->|]; [apply E1; lia|].
  replace (w + j * w) with ((j + 1) * w) in E2 by lia. apply (IH (j + 1) l2 Hw ltac:(lia) Hs E2); lia.
Qed.
Lemma chk_not_fuel z : chk z <> Fuel.
Proof. unfold chk. destruct (in_int z); discriminate. Qed.
Lemma bind_fuel {A B} (m : res A) (k : A -> res B) : m <> Fuel -> (forall a, m = Ok a -> k a <> Fuel) -> bind m k <> Fuel.
Proof. intros H1 H2. destruct m; cbn [bind]; auto; discriminate. Qed.
Lemma pt_add_not_fuel p s : pt_add p s <> Fuel.
Proof. unfold pt_add. repeat (apply bind_fuel; [apply chk_not_fuel|intros ? _]). discriminate. Qed.
Lemma mat_mul_not_fuel m p : mat_mul m p <> Fuel.
Proof. unfold mat_mul. repeat (apply bind_fuel; [apply chk_not_fuel|intros ? _]). discriminate. Qed.
Lemma rd_not_fuel l i : rd l i <> Fuel.
Proof. unfold rd. destruct (inb _ _ _); discriminate. Qed.
Lemma glyphRow_not_fuel m shifts pos bits w n : forall i j ptr, glyphRow n m shifts pos bits w i j ptr <> Fuel.
Proof.
  induction n as [|n IH]; intros i j ptr; cbn [glyphRow]; [discriminate|].
  apply bind_fuel; [apply rd_not_fuel|intros b _]. apply bind_fuel.
  - destruct (negb _); [|discriminate]. apply bind_fuel; [apply pt_add_not_fuel|intros ? _].
    apply bind_fuel; [apply mat_mul_not_fuel|intros ? _]. apply bind_fuel; [apply pt_add_not_fuel|intros ? _]. discriminate.
  - intros ps _. apply bind_fuel; [apply IH|]. intros [l p] _. discriminate.
Qed.
Lemma glyphRows_not_fuel m shifts pos bits w n : forall j ptr, glyphRows n m shifts pos bits w j ptr <> Fuel.
Proof.
  induction n as [|n IH]; intros j ptr; cbn [glyphRows]; [discriminate|].
  apply bind_fuel; [apply glyphRow_not_fuel|]. intros [l p] _. apply bind_fuel; [apply IH|]. discriminate.
Qed.

(** only the bytes of the glyph matter *)
Lemma glyphRow_ext m shifts pos bits bits' s w n : forall i j,
  0 <= i -> i + Z.of_nat n = w -> 0 <= j ->
  (forall i', i <= i' < w -> rd bits (s + (i' + j * w) / 8) = rd bits' (s + (i' + j * w) / 8)) ->
  glyphRow n m shifts pos bits w i j (s + (i + j * w) / 8) = glyphRow n m shifts pos bits' w i j (s + (i + j * w) / 8).
Proof.
  induction n as [|n IH]; intros i j Hi Hn Hj H; cbn [glyphRow]; [reflexivity|].
  rewrite <- H by lia. destruct (rd bits (s + (i + j * w) / 8)) as [b| |]; cbn [bind]; try reflexivity.
  rewrite next_ptr by nia. replace (i + j * w + 1) with (i + 1 + j * w) by lia.
  rewrite IH; [reflexivity|lia|lia|lia|intros; apply H; lia].
Qed.
Lemma glyphRows_ext m shifts pos bits bits' s w n : forall j,
  0 <= w -> 0 <= j -> 0 <= s ->
  (forall k, 0 <= k < (j + Z.of_nat n) * w -> rd bits (s + k / 8) = rd bits' (s + k / 8)) ->
  glyphRows n m shifts pos bits w j (s + j * w / 8) = glyphRows n m shifts pos bits' w j (s + j * w / 8).
Proof.
  induction n as [|n IH]; intros j Hw Hj Hs H; cbn [glyphRows]; [reflexivity|].
  replace (s + j * w / 8) with (s + (0 + j * w) / 8) by reflexivity.
  rewrite (glyphRow_ext m shifts pos bits bits' s w (Z.to_nat w) 0 j); [|lia|lia|lia|intros i' Hi'; apply H; nia].
  destruct (glyphRow _ m shifts pos bits' w 0 j _) as [[l p]| |] eqn:E; cbn [bind]; try reflexivity.
  apply glyphRow_reads in E; [|lia|lia|lia|lia]. destruct E as [-> _]. replace (w + j * w) with ((j + 1) * w) by lia.
  rewrite IH; [reflexivity|lia|lia|lia|intros; apply H; lia].
Qed.

(** ** drawCharAt *)
Lemma data_bits f g : 0 <= ew g -> 0 <= eh g -> 0 <= cstart g <= zlen (bitmap f) ->
  (data_inside f g <-> forall k, 0 <= k < eh g * ew g -> cstart g + k / 8 < zlen (bitmap f)).
Proof.
  intros Hw Hh Hs. unfold data_inside, data_bytes. split.
  - intros [_ H] k Hk. replace (eh g * ew g) with (ew g * eh g) in Hk by lia. lia.
  - intros H. split; [lia|]. destruct (Z.eq_dec (ew g * eh g) 0) as [E|E]; [rewrite E; change ((0 + 7) / 8) with 0; lia|].
    assert (0 < ew g * eh g) by nia. specialize (H (ew g * eh g - 1) ltac:(lia)). lia.
Qed.
Lemma getBitmap_typed fuel sg f s g : font_typed f -> getBitmap fuel sg f s = Ok g ->
  0 <= cstart g <= zlen (bitmap f) /\ 0 <= ew g < 256 /\ 0 <= eh g < 256 /\ 0 <= cwidth g < 256 /\
  -128 <= cox g < 128 /\ -128 <= coy g < 128.
Proof. intros Hf E. unfold getBitmap in E. apply bind_inv in E. destruct E as [k [_ E]]. eapply bitmapOf_typed; eassumption. Qed.

Lemma drawCharAt_plots fuel0 sg c f pos s g sh :
  font_typed f -> getShifts c = Ok sh -> is_int (fst pos + cox g) -> is_int (snd pos + coy g) ->
  getBitmap fuel0 sg f s = Ok g -> data_inside f g ->
  (forall i j, 0 <= i < ew g -> 0 <= j < eh g -> img_bit (bitmap f) (8 * cstart g + j * ew g + i) = true ->
     plot c sh (fst pos + cox g, snd pos + coy g) i j = Ok [phys c (fst pos + cox g + i, snd pos + coy g + j)]) ->
  exists l, (forall fuel, getBitmap fuel sg f s = Ok g -> drawCharAt fuel sg c f pos s = Ok (l, cwidth g)) /\
    forall p, In (phys c p) l <-> glyph_pixels (bitmap f) g (fst pos + cox g, snd pos + coy g) p.
Proof.
  intros Hf Hsh Px Py E0 Hd Hplot.
  destruct (getBitmap_typed _ _ _ _ _ Hf E0) as [T1 [T2 [T3 [T4 [T5 T6]]]]].
  destruct (glyphRows_ok c sh (fst pos + cox g, snd pos + coy g)
    (bitmap f) (cstart g) (ew g) (Z.to_nat (eh g)) 0) as [l [E F]]; [lia|lia|lia|lia| | |].
  { intros k Hk. rewrite Z.add_0_l, Z2Nat.id in Hk by lia. apply (proj1 (data_bits f g ltac:(lia) ltac:(lia) ltac:(lia)) Hd). exact Hk. }
  { intros i j Hi Hj. rewrite Z.add_0_l, Z2Nat.id in Hj by lia. cbn [fst snd]. apply Hplot; assumption. }
  rewrite Z.mul_0_l, Z.div_0_l, Z.add_0_r in E by lia. exists l. split.
  - intros fuel Eg. unfold drawCharAt. rewrite Hsh. cbn [bind]. rewrite Eg. cbn [bind]. rewrite (chk_ok _ Py), (chk_ok _ Px). cbn [bind]. rewrite E. reflexivity.
  - intros p. rewrite F. unfold glyph_pixels. cbn [fst snd]. rewrite Z.add_0_l, Z2Nat.id by lia. split.
    + intros [i [j [A [B [C D]]]]]. apply phys_inj in C. exists i, j. auto.
    + intros [i [j [A [B [C D]]]]]. exists i, j. rewrite C. auto.
Qed.
Lemma rd_agree l l' i : nth_error l (Z.to_nat i) = nth_error l' (Z.to_nat i) -> 0 <= i -> rd l i = rd l' i.
Proof.
  intros H Hi. unfold rd, inb. destruct (nth_error l (Z.to_nat i)) as [x|] eqn:E.
  - assert (A : (Z.to_nat i < length l)%nat) by (apply nth_error_Some; congruence).
    assert (B : (Z.to_nat i < length l')%nat) by (apply nth_error_Some; congruence). unfold zlen.
    replace ((0 <=? i) && (0 <=? 1) && (i + 1 <=? Z.of_nat (length l))) with true by lia.
    replace ((0 <=? i) && (0 <=? 1) && (i + 1 <=? Z.of_nat (length l'))) with true by lia.
    unfold nthZ. rewrite (nth_error_nth _ _ 0 E), (nth_error_nth _ _ 0 (eq_sym H)). reflexivity.
  - assert (A : (length l <= Z.to_nat i)%nat) by (apply nth_error_None; congruence).
    assert (B : (length l' <= Z.to_nat i)%nat) by (apply nth_error_None; congruence). unfold zlen.
    replace ((0 <=? i) && (0 <=? 1) && (i + 1 <=? Z.of_nat (length l))) with false by lia.
    replace ((0 <=? i) && (0 <=? 1) && (i + 1 <=? Z.of_nat (length l'))) with false by lia. reflexivity.
Qed.
Lemma drawCharAt_reads fuel sg c f f' pos s g g' :
  font_typed f -> getBitmap fuel sg f s = Ok g -> getBitmap fuel sg f' s = Ok g' ->
  cstart g' = cstart g -> ew g' = ew g -> eh g' = eh g -> cox g' = cox g -> coy g' = coy g -> cwidth g' = cwidth g ->
  (forall i, cstart g <= i < cstart g + data_bytes g -> nth_error (bitmap f') (Z.to_nat i) = nth_error (bitmap f) (Z.to_nat i)) ->
  drawCharAt fuel sg c f' pos s = drawCharAt fuel sg c f pos s.
Proof.
  intros Hf E E' S1 S2 S3 S4 S5 S6 H. destruct (getBitmap_typed _ _ _ _ _ Hf E) as [T1 [T2 [T3 [T4 [T5 T6]]]]].
  unfold drawCharAt. destruct (getShifts c) as [sh| |]; cbn [bind]; [|reflexivity|reflexivity].
  rewrite E, E'. cbn [bind]. rewrite S1, S2, S3, S4, S5, S6.
  destruct (chk (snd pos + coy g)) as [y| |]; cbn [bind]; [|reflexivity|reflexivity].
  destruct (chk (fst pos + cox g)) as [x| |]; cbn [bind]; [|reflexivity|reflexivity].
  replace (glyphRows (Z.to_nat (eh g)) (getTransformMatrix c) sh (x, y) (bitmap f') (ew g) 0 (cstart g))
    with (glyphRows (Z.to_nat (eh g)) (getTransformMatrix c) sh (x, y) (bitmap f) (ew g) 0 (cstart g)); [reflexivity|].
  pose proof (glyphRows_ext (getTransformMatrix c) sh (x, y) (bitmap f) (bitmap f') (cstart g) (ew g) (Z.to_nat (eh g)) 0) as X.
  rewrite Z.mul_0_l, Z.div_0_l, Z.add_0_r in X by lia. apply X; [lia|lia|lia|].
  intros k Hk. rewrite Z.add_0_l, Z2Nat.id in Hk by lia. apply rd_agree; [|lia]. symmetry. apply H.
  unfold data_bytes. replace (ew g * eh g) with (eh g * ew g) by lia. lia.
Qed.

(** ** drawStringAt *)
Definition glyphs_of (sg : bool) (f : font) (fuel : nat) (text : list Z) (gs : list charBitmap) : Prop :=
  Forall2 (fun b g => getBitmap fuel sg f (as_char sg b) = Ok g) text gs.
Lemma completes_all {A B} (op : A -> nat -> res B) l bs :
  Forall2 (fun a b => completes (op a) b) l bs ->
  exists N, forall fuel, (N <= fuel)%nat -> Forall2 (fun a b => op a fuel = Ok b) l bs.
Proof.
  induction 1 as [|a b l bs [n Hn] _ [N HN]]; [exists O; intros; constructor|].
  exists (max n N). intros fuel Hf. constructor; [apply Hn; lia|apply HN; lia].
Qed.

Lemma text_pixels_cons data g gs p q :
  text_pixels data (g :: gs) p q <->
  glyph_pixels data g (fst p + cox g, snd p + coy g) q \/ text_pixels data gs (fst p + cwidth g, snd p) q.
Proof.
  unfold text_pixels. cbn [fst snd]. split.
  - intros [[|n] [g' [E H]]]; cbn [nth_error firstn advance] in *.
    + injection E as <-. left. rewrite Z.add_0_r in H. exact H.
    + right. exists n, g'. split; [exact E|]. replace (fst p + cwidth g + advance (firstn n gs)) with (fst p + (cwidth g + advance (firstn n gs))) by lia. exact H.
  - intros [H|[n [g' [E H]]]].
    + exists O, g. cbn [nth_error firstn advance]. rewrite Z.add_0_r. auto.
    + exists (S n), g'. cbn [nth_error firstn advance]. split; [exact E|].
      replace (fst p + (cwidth g + advance (firstn n gs))) with (fst p + cwidth g + advance (firstn n gs)) by lia. exact H.
Qed.

Lemma advance_nonneg sg f N text gs : font_typed f -> glyphs_of sg f N text gs -> 0 <= advance gs.
Proof.
  intros Hf H. induction H as [|b g text gs Hg _ IH]; cbn [advance]; [lia|].
  pose proof (getBitmap_typed _ _ _ _ _ Hf Hg). lia.
Qed.
Lemma drawStringAt_each sg c f N text : forall gs pos,
  font_typed f -> is_int (fst pos) -> (forall fuel, (N <= fuel)%nat -> glyphs_of sg f fuel text gs) -> is_int (fst pos + advance gs) ->
  (forall n b g, nth_error text n = Some b -> nth_error gs n = Some g ->
     exists l, (forall fuel, (N <= fuel)%nat -> drawCharAt fuel sg c f (fst pos + advance (firstn n gs), snd pos) (as_char sg b) = Ok (l, cwidth g)) /\
       forall p, In (phys c p) l <-> glyph_pixels (bitmap f) g (fst pos + advance (firstn n gs) + cox g, snd pos + coy g) p) ->
  exists l, (forall fuel, (N <= fuel)%nat -> drawStringAt fuel sg c f pos text = Ok l) /\ forall p, In (phys c p) l <-> text_pixels (bitmap f) gs pos p.
Proof.
  induction text as [|b text IH]; intros gs pos Hf Hp Hg Hx Hd.
  - specialize (Hg N (Nat.le_refl N)). inversion Hg; subst. exists []. split; [reflexivity|].
    intros p. cbn [In]. split; [tauto|]. intros [[|n] [g [E _]]]; discriminate.
  - pose proof (Hg N (Nat.le_refl N)) as HN. destruct gs as [|g gs]; [inversion HN|].
    assert (HN1 : getBitmap N sg f (as_char sg b) = Ok g) by (inversion HN; assumption).
    assert (HN2 : glyphs_of sg f N text gs) by (inversion HN; assumption).
    pose proof (getBitmap_typed _ _ _ _ _ Hf HN1) as T. pose proof (advance_nonneg _ _ _ _ _ Hf HN2) as A.
    cbn [advance] in Hx. unfold is_int in Hp, Hx.
    destruct (Hd O b g eq_refl eq_refl) as [l [E F]]. cbn [firstn advance] in E, F. rewrite Z.add_0_r in E, F.
    assert (I : is_int (fst pos + cwidth g)) by (unfold is_int; lia).
    destruct (IH gs (fst pos + cwidth g, snd pos)) as [l2 [E2 F2]]; [exact Hf|exact I| | | |].
    { intros fuel Hfu. specialize (Hg fuel Hfu). inversion Hg; assumption. }
    { unfold is_int. cbn [fst]. lia. }
    { intros n b' g' Eb Eg. destruct (Hd (S n) b' g' Eb Eg) as [l3 [E3 F3]]. cbn [firstn advance] in E3, F3.
      exists l3. cbn [fst snd]. replace (fst pos + cwidth g + advance (firstn n gs)) with (fst pos + (cwidth g + advance (firstn n gs))) by lia. auto. }
    exists (l ++ l2). split.
    + intros fuel Hfu. cbn [drawStringAt]. destruct pos as [x y]. cbn [fst snd] in *. rewrite E by exact Hfu. cbn [bind].
      rewrite (chk_ok _ I). cbn [bind]. rewrite E2 by exact Hfu. reflexivity.
    + intros p. rewrite in_app_iff, text_pixels_cons, F, F2. cbn [fst snd]. tauto.
Qed.
Lemma advance_firstn sg f N text gs n : font_typed f -> glyphs_of sg f N text gs -> 0 <= advance (firstn n gs) <= advance gs.
Proof.
  intros Hf H. revert n. induction H as [|b g text gs Hg H IH]; intros [|n]; cbn [firstn advance]; try lia.
  - pose proof (getBitmap_typed _ _ _ _ _ Hf Hg). specialize (IH O). cbn [firstn advance] in IH. lia.
  - pose proof (getBitmap_typed _ _ _ _ _ Hf Hg). specialize (IH n). lia.
Qed.
Lemma glyphs_of_nth sg f N text gs n b g : glyphs_of sg f N text gs -> nth_error text n = Some b -> nth_error gs n = Some g ->
  getBitmap N sg f (as_char sg b) = Ok g.
Proof.
  intros H. revert n. induction H as [|b' g' text gs Hg H IH]; intros [|n] Eb Eg; cbn [nth_error] in *; try discriminate; [congruence|eauto].
Qed.
Lemma drawStringAt_app fuel sg c f t1 : forall t2 pos gs l1 l2,
  glyphs_of sg f fuel t1 gs ->
  drawStringAt fuel sg c f pos t1 = Ok l1 -> drawStringAt fuel sg c f (fst pos + advance gs, snd pos) t2 = Ok l2 ->
  drawStringAt fuel sg c f pos (t1 ++ t2) = Ok (l1 ++ l2).
Proof.
  induction t1 as [|b t1 IH]; intros t2 pos gs l1 l2 Hg E1 E2.
  - inversion Hg; subst. cbn [drawStringAt advance app] in *. apply Ok_inj in E1. subst l1. rewrite Z.add_0_r in E2. destruct pos; exact E2.
  - destruct gs as [|g gs]; [inversion Hg|].
    assert (HN1 : getBitmap fuel sg f (as_char sg b) = Ok g) by (inversion Hg; assumption).
    assert (HN2 : glyphs_of sg f fuel t1 gs) by (inversion Hg; assumption).
    cbn [app drawStringAt] in *. apply bind_inv in E1. destruct E1 as [[l adv] [D1 E1]]. rewrite D1. cbn [bind].
    apply bind_inv in E1. destruct E1 as [x [Dx E1]]. rewrite Dx. cbn [bind].
    apply bind_inv in E1. destruct E1 as [l3 [D3 E1]]. apply Ok_inj in E1. subst l1.
    assert (adv = cwidth g /\ x = fst pos + adv) as [-> ->].
    { split.
      - unfold drawCharAt in D1. apply bind_inv in D1. destruct D1 as [sh [_ D1]]. rewrite HN1 in D1. cbn [bind] in D1.
        apply bind_inv in D1. destruct D1 as [? [_ D1]]. apply bind_inv in D1. destruct D1 as [? [_ D1]].
        apply bind_inv in D1. destruct D1 as [? [_ D1]]. apply Ok_inj in D1. inversion D1. reflexivity.
      - unfold chk in Dx. destruct (in_int _); [|discriminate]. apply Ok_inj in Dx. auto. }
    rewrite (IH t2 (fst pos + cwidth g, snd pos) gs l3 l2 HN2 D3).
    + cbn [bind]. rewrite app_assoc. reflexivity.
    + cbn [fst snd advance] in *. replace (fst pos + cwidth g + advance gs) with (fst pos + (cwidth g + advance gs)) by lia. exact E2.
Qed.

(** ** getTextBounds *)
Fixpoint rest_width (gs : list charBitmap) : Z :=
  match gs with [] => 0 | [g] => ew g | g :: gs => cwidth g + rest_width gs end.
Definition bottoms (a : Z) (gs : list charBitmap) : Z := fold_left (fun m g => Z.max m (coy g + eh g)) gs a.
Definition tops (a : Z) (gs : list charBitmap) : Z := fold_left (fun m g => Z.min m (coy g)) gs a.
Lemma rest_width_snoc gs g : rest_width (gs ++ [g]) = advance gs + ew g.
Proof.
  induction gs as [|x gs IH]; [reflexivity|]. cbn [app rest_width advance]. destruct (gs ++ [g]) eqn:E; [destruct gs; discriminate|].
  rewrite IH. lia.
Qed.
Lemma rest_width_nonneg sg f N text gs : font_typed f -> glyphs_of sg f N text gs -> 0 <= rest_width gs.
Proof.
  intros Hf H. induction H as [|b g text gs Hg _ IH]; cbn [rest_width]; [lia|].
  pose proof (getBitmap_typed _ _ _ _ _ Hf Hg). destruct gs; lia.
Qed.
Lemma boundsLoop_ok fuel sg f n text : forall gs i lft width mb mt,
  font_typed f -> glyphs_of sg f fuel text gs -> 0 < i -> i + zlen text = n -> 0 <= width ->
  width + rest_width gs <= INT_MAX ->
  boundsLoop fuel sg f n i text lft width mb mt = Ok (lft, width + rest_width gs, bottoms mb gs, tops mt gs).
Proof.
  induction text as [|b text IH]; intros gs i lft width mb mt Hf Hg Hi Hn Hw Hb.
  - inversion Hg; subst. cbn [boundsLoop rest_width]. rewrite Z.add_0_r. reflexivity.
  - destruct gs as [|g gs]; [inversion Hg|].
    assert (HN1 : getBitmap fuel sg f (as_char sg b) = Ok g) by (inversion Hg; assumption).
    assert (HN2 : glyphs_of sg f fuel text gs) by (inversion Hg; assumption).
    pose proof (getBitmap_typed _ _ _ _ _ Hf HN1) as T. rewrite zlen_cons in *. pose proof (zlen_nonneg text).
    cbn [boundsLoop]. rewrite HN1. cbn [bind]. replace (i =? 0) with false by lia.
    assert (HL : zlen text = zlen gs) by (unfold zlen; f_equal; clear -HN2; induction HN2; cbn [length]; congruence).
    destruct gs as [|g2 gs].
    + change (zlen (@nil charBitmap)) with 0 in HL. replace (i <? n - 1) with false by lia. cbn [rest_width] in Hb. rewrite chk_ok by (unfold INT_MIN; lia). cbn [bind].
      rewrite (IH []) by (try assumption; cbn [rest_width]; lia). cbn [rest_width bottoms tops fold_left]. rewrite Z.add_0_r. reflexivity.
    + rewrite zlen_cons in HL. pose proof (zlen_nonneg gs). replace (i <? n - 1) with true by lia.
      pose proof (rest_width_nonneg _ _ _ _ _ Hf HN2) as R. change (rest_width (g :: g2 :: gs)) with (cwidth g + rest_width (g2 :: gs)) in Hb.
      rewrite chk_ok by (unfold INT_MIN; lia). cbn [bind].
      rewrite (IH (g2 :: gs)) by (try assumption; lia). cbn [rest_width bottoms tops fold_left].
      rewrite Z.add_assoc. reflexivity.
Qed.
Lemma getTextBounds_ok fuel sg f b text g gs :
  font_typed f -> glyphs_of sg f fuel (b :: text) (g :: gs) -> ew g + rest_width gs <= INT_MAX ->
  getTextBounds fuel sg f (b :: text) =
  Ok (mkRect (- cox g, - tops 0 (g :: gs)) (ew g + rest_width gs, bottoms (-255) (g :: gs) - tops 0 (g :: gs))).
Proof.
  intros Hf Hg HL.
  assert (HN1 : getBitmap fuel sg f (as_char sg b) = Ok g) by (inversion Hg; assumption).
  assert (HN2 : glyphs_of sg f fuel text gs) by (inversion Hg; assumption).
  pose proof (getBitmap_typed _ _ _ _ _ Hf HN1) as T.
  unfold getTextBounds. cbn [boundsLoop]. rewrite HN1. cbn [bind]. change (0 =? 0) with true. cbv iota. cbn [bind].
  rewrite (boundsLoop_ok fuel sg f (zlen (b :: text)) text gs) by (try assumption; rewrite ?zlen_cons; lia). cbn [bind].
  reflexivity.
Qed.
Lemma boundsLoop_inv fuel sg f n text : forall i lft width mb mt r,
  font_typed f -> 0 < i -> i + zlen text = n -> boundsLoop fuel sg f n i text lft width mb mt = Ok r ->
  width <= INT_MAX -> exists gs, glyphs_of sg f fuel text gs /\ width + rest_width gs <= INT_MAX.
Proof.
  induction text as [|b text IH]; intros i lft width mb mt r Hf Hi Hn E Hw.
  - exists []. split; [constructor|]. cbn [rest_width]. lia.
  - cbn [boundsLoop] in E. apply bind_inv in E. destruct E as [g [Eg E]]. replace (i =? 0) with false in E by lia.
    apply bind_inv in E. destruct E as [[lft' w'] [Ew E]]. apply bind_inv in Ew. destruct Ew as [w [Ew E0]].
    apply Ok_inj in E0. injection E0 as <- <-. rewrite zlen_cons in Hn. pose proof (zlen_nonneg text).
    apply chk_inv in Ew. destruct Ew as [-> Ew]. apply IH in E; [|exact Hf|lia|lia|lia]. destruct E as [gs [HG HR]].
    exists (g :: gs). split; [constructor; assumption|]. destruct gs as [|g2 gs].
    + inversion HG; subst. change (zlen (@nil Z)) with 0 in *. replace (i <? i + (1 + 0) - 1) with false in * by lia. cbn [rest_width] in *. lia.
    + inversion HG as [|? ? text' ? ? ? E1 E2]; subst. rewrite zlen_cons in *. pose proof (zlen_nonneg text').
      replace (i <? i + (1 + (1 + zlen text')) - 1) with true in * by lia.
      change (rest_width (g :: g2 :: gs)) with (cwidth g + rest_width (g2 :: gs)). lia.
Qed.
Lemma getTextBounds_inv fuel sg f b text r : font_typed f -> getTextBounds fuel sg f (b :: text) = Ok r ->
  exists g gs, glyphs_of sg f fuel (b :: text) (g :: gs) /\ ew g + rest_width gs <= INT_MAX.
Proof.
  intros Hf E. unfold getTextBounds in E. apply bind_inv in E. destruct E as [r' [E _]]. cbn [boundsLoop] in E.
  apply bind_inv in E. destruct E as [g [Eg E]]. change (0 =? 0) with true in E. cbv iota in E. cbn [bind] in E.
  pose proof (getBitmap_typed _ _ _ _ _ Hf Eg) as T. rewrite zlen_cons in E.
  apply boundsLoop_inv in E; [|exact Hf|lia|lia|unfold INT_MAX; lia]. destruct E as [gs [HG HR]]. exists g, gs. split; [constructor; assumption|exact HR].
Qed.
Lemma bottoms_max gs : forall a, a <= bottoms a gs /\ (forall g, In g gs -> coy g + eh g <= bottoms a gs) /\
  (bottoms a gs = a \/ exists g, In g gs /\ bottoms a gs = coy g + eh g).
Proof.
  induction gs as [|g gs IH]; intros a; cbn [bottoms fold_left].
  - split; [lia|]. split; [intros g []|auto].
  - destruct (IH (Z.max a (coy g + eh g))) as [A [B C]]. unfold bottoms in *. split; [lia|]. split.
    + intros g' [<-|H]; [lia|auto].
    + destruct C as [C|[g' [C D]]]; [|right; exists g'; split; [right; exact C|exact D]].
      destruct (Z.max_spec a (coy g + eh g)) as [[_ M]|[_ M]]; rewrite M in *; [right; exists g; split; [left; reflexivity|exact C]|left; exact C].
Qed.
Lemma tops_min gs : forall a, tops a gs <= a /\ (forall g, In g gs -> tops a gs <= coy g) /\
  (tops a gs = a \/ exists g, In g gs /\ tops a gs = coy g).
Proof.
  induction gs as [|g gs IH]; intros a; cbn [tops fold_left].
  - split; [lia|]. split; [intros g []|auto].
  - destruct (IH (Z.min a (coy g))) as [A [B C]]. unfold tops in *. split; [lia|]. split.
    + intros g' [<-|H]; [lia|auto].
    + destruct C as [C|[g' [C D]]]; [|right; exists g'; split; [right; exact C|exact D]].
      destruct (Z.min_spec a (coy g)) as [[_ M]|[_ M]]; rewrite M in *; [left; exact C|right; exists g; split; [left; reflexivity|exact C]].
Qed.

(** ** Lookup as a whole *)
Lemma glyphIndex_mono sg f : forall n m s k, (n <= m)%nat -> glyphIndex n sg f s = Ok k -> glyphIndex m sg f s = Ok k.
Proof.
  induction n as [|n IH]; intros m s k Hm E; [discriminate|]. destruct m as [|m]; [lia|]. cbn [glyphIndex] in *.
  destruct (_ || _); [apply IH; [lia|exact E]|]. destruct (_ || _); [apply IH; [lia|exact E]|exact E].
Qed.
Lemma getBitmap_mono sg f n m s g : (n <= m)%nat -> getBitmap n sg f s = Ok g -> getBitmap m sg f s = Ok g.
Proof.
  intros Hm E. unfold getBitmap in *. apply bind_inv in E. destruct E as [k [E1 E]]. rewrite (glyphIndex_mono sg f n m s k Hm E1). exact E.
Qed.
Lemma glyphs_of_completes sg f n text gs : glyphs_of sg f n text gs ->
  Forall2 (fun b g => completes (fun fuel => getBitmap fuel sg f (as_char sg b)) g) text gs.
Proof. intros H. induction H as [|b g text gs E _ IH]; constructor; [|exact IH]. exists n. intros m Hm. apply (getBitmap_mono sg f n m _ _ Hm E). Qed.

Lemma bitmapOf_entry f k : 0 <= k < zlen (glyphs f) -> entry_view f k (bitmapOf f k).
Proof.
  intros Hk. destruct (nth_error (glyphs f) (Z.to_nat k)) as [g|] eqn:E.
  2: { apply nth_error_None in E. unfold zlen in Hk. lia. }
  exists g. split; [exact E|]. split; [apply bitmapOf_last|]. split.
  - intros Ho. destruct (Z.eq_dec (k + 1) (zlen (glyphs f))) as [HL|HL]; [apply bitmapOf_last; exact HL|].
    rewrite (bitmapOf_inner f k g) by (try assumption; lia). replace (goff g <=? zlen (bitmap f)) with false by lia. reflexivity.
  - intros H1 H2. rewrite (bitmapOf_inner f k g) by (try assumption; lia). replace (goff g <=? zlen (bitmap f)) with true by lia. reflexivity.
Qed.
Lemma lookup_entry : forall sg f c,
  font_typed f -> 0 <= c < 256 ->
  (has_entry sg f c -> forall fuel, (1 <= fuel)%nat -> getBitmap fuel sg f (as_char sg c) = bitmapOf f (slot (first f) c)) /\
  (~ has_entry sg f c -> has_entry sg f (first f) ->
     forall fuel, (2 <= fuel)%nat -> getBitmap fuel sg f (as_char sg c) = bitmapOf f 0) /\
  (~ has_entry sg f c -> ~ has_entry sg f (first f) -> forall fuel, getBitmap fuel sg f (as_char sg c) = Fuel).
Proof.
  intros sg f c Hf Hc. pose proof (proj1 Hf) as Hff. unfold getBitmap. split; [|split].
  - intros H [|fuel] Hfu; [lia|]. rewrite glyphIndex_hit by assumption. reflexivity.
  - intros H H0 [|[|fuel]] Hfu; [lia|lia|]. rewrite glyphIndex_miss by assumption. rewrite glyphIndex_hit by assumption. cbn [bind].
    replace (slot (first f) (first f)) with 0; [reflexivity|]. destruct H0 as [_ [_ H0]]. unfold slot in *. destruct (first f <? 127); lia.
  - intros H H0 [|fuel]; [reflexivity|]. rewrite glyphIndex_miss by assumption. rewrite glyphIndex_loop by assumption. reflexivity.
Qed.
(** a text that is measured is not too wide for that *)
Lemma measured_width sg f text gs r : font_typed f ->
  Forall2 (fun b g => completes (fun fuel => getBitmap fuel sg f (as_char sg b)) g) text gs ->
  completes (fun fuel => getTextBounds fuel sg f text) r ->
  forall g0 mid gl, gs = g0 :: mid ++ [gl] -> ew g0 + advance mid + ew gl <= INT_MAX.
Proof.
  intros Hf Hg [n Hr] g0 mid gl ->. apply (completes_all (fun b fuel => getBitmap fuel sg f (as_char sg b))) in Hg. destruct Hg as [N HN].
  specialize (Hr (max n N) ltac:(lia)). specialize (HN (max n N) ltac:(lia)). destruct text as [|b text]; [inversion HN|].
  apply getTextBounds_inv in Hr; [|exact Hf]. destruct Hr as (g & gs & HG & W).
  assert (U : forall l gs1 gs2, glyphs_of sg f (max n N) l gs1 -> glyphs_of sg f (max n N) l gs2 -> gs1 = gs2).
  { clear. induction l as [|a l IH]; intros gs1 gs2 H1 H2; inversion H1; inversion H2; subst; [reflexivity|]. f_equal; [congruence|apply IH; assumption]. }
  pose proof (U _ _ _ HG HN) as E. injection E as -> ->. rewrite rest_width_snoc in W. lia.
Qed.
