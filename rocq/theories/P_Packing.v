(** Properties C40-C43 and C45 (font converter: packing, tables, encoding). *)
From Verif Require Import Base S_Graphics S_Font S_Paint S_TextRoom S_Packing M_Geometry M_FrameBuffer M_Canvas M_Font M_Packing L_Geometry L_FrameBuffer L_Canvas L_Circle L_Paint L_Font L_Packing P_Font.

(** C40: bits and bytes between two flushes come out packed, most significant bit first, padded with
    zeros, and the flush leaves the stream as new. *)
Theorem C40_packed : forall os sent0,
  ~ In FlushBits os -> Forall byte_op os ->
  exists out, packed (concat (map op_bits os)) out /\
    bitRun (os ++ [FlushBits]) (mkBits 0 0 sent0) = mkBits 0 0 (sent0 ++ out).
Proof.
  intros os sent0 Hf Hb. rewrite bitRun_app. cbn [bitRun bitStep].
  apply (bits_inv_flush sent0). apply (bits_inv_run os sent0 []); [exact Hf|exact Hb|apply bits_inv_new].
Qed.
Print Assumptions C40_packed.
(** so any sequence of flushed pieces gives the packed pieces one after the other *)
Theorem C40_pieces : forall pieces,
  Forall (fun os => ~ In FlushBits os /\ Forall byte_op os) pieces ->
  exists outs, Forall2 (fun os out => packed (concat (map op_bits os)) out) pieces outs /\
    bitRun (concat (map (fun os => os ++ [FlushBits]) pieces)) newBits = mkBits 0 0 (concat outs).
Proof.
  assert (G : forall pieces sent0, Forall (fun os => ~ In FlushBits os /\ Forall byte_op os) pieces ->
    exists outs, Forall2 (fun os out => packed (concat (map op_bits os)) out) pieces outs /\
      bitRun (concat (map (fun os => os ++ [FlushBits]) pieces)) (mkBits 0 0 sent0) = mkBits 0 0 (sent0 ++ concat outs)).
  { induction pieces as [|os pieces IH]; intros sent0 H.
    - exists []. split; [constructor|]. cbn [map concat bitRun]. rewrite app_nil_r. reflexivity.
    - destruct (Forall_inv H) as [H1 H2]. destruct (C40_packed os sent0 H1 H2) as [out [P E]].
      destruct (IH (sent0 ++ out) (Forall_inv_tail H)) as [outs [F E2]]. exists (out :: outs). split; [constructor; assumption|].
      cbn [map concat]. rewrite bitRun_app, E, E2, app_assoc. reflexivity. }
  intros pieces H. apply (G pieces []). exact H.
Qed.
Print Assumptions C40_pieces.
(** the packing is determined by the bits *)
Theorem C40_determined : forall l a b, packed l a -> packed l b -> a = b.
Proof.
  intros l a b [A1 [A2 A3]] [B1 [B2 B3]].
  assert (HL : length a = length b) by (unfold zlen in *; lia).
  apply (nth_ext a b 0 0 HL). intros n Hn. apply Z.bits_inj'. intros m Hm.
  assert (Hbyte : forall l, bytes l -> is_byte (nth n l 0)).
  { intros l' H. destruct (nth_in_or_default n l' 0) as [K|K]; [exact (proj1 (Forall_forall _ _) H _ K)|rewrite K; split; lia]. }
  destruct (Z_lt_dec m 8) as [Hm8|Hm8].
  - specialize (A3 (8 * Z.of_nat n + (7 - m)) ltac:(lia)). specialize (B3 (8 * Z.of_nat n + (7 - m)) ltac:(lia)).
    rewrite <- B3 in A3. unfold img_bit, nthZ in A3.
    replace ((8 * Z.of_nat n + (7 - m)) / 8) with (Z.of_nat n) in A3 by (Z.div_mod_to_equations; lia).
    replace ((8 * Z.of_nat n + (7 - m)) mod 8) with (7 - m) in A3 by (Z.div_mod_to_equations; lia).
    rewrite Nat2Z.id in A3. replace (7 - (7 - m)) with m in A3 by lia. exact A3.
  - rewrite !byte_high by (try apply Hbyte; try assumption; lia). reflexivity.
Qed.
Print Assumptions C40_determined.
Example C40_case :
  let os := [PutBit true; PutBit false; PutByte 0xAB; PutBit true] in
  ~ In FlushBits os /\ Forall byte_op os /\
  sent (bitRun (os ++ [FlushBits]) newBits) = [0xAA; 0xE0] (* 10 10101011 1 -> 10101010 11100000 *).
Proof.
  split; [intros [H|[H|[H|[H|[]]]]]; discriminate|]. split; [repeat constructor; cbn; lia|reflexivity].
Qed.

(** C41: what is stored for a rendered character. *)
Theorem C41_data : forall r, rendered_ok r -> exists d, packGlyph r newBits = Ok (d, newBits) /\ holds r d.
Proof. exact packGlyph_holds. Qed.
Print Assumptions C41_data.
(** larger bitmaps are stored with all their pixels, too, but the descriptor keeps only the low bytes of the
    metrics and of the size *)
Theorem C41_any_size : forall r, delivered r -> exists d, packGlyph r newBits = Ok (d, newBits) /\
  gw (fst d) = rwidth r mod 256 /\ gh (fst d) = rrows r mod 256 /\ gshift (fst d) = radvance r / 65536 mod 256 /\
  as_int8 (rleft r) (gox (fst d)) /\ as_int8 (1 - rtop r) (goy (fst d)) /\ goff (fst d) = rsize r mod 65536 /\
  bytes (snd d) /\ zlen (snd d) = rsize r /\
  forall i j, 0 <= i < rwidth r -> 0 <= j < rrows r -> img_bit (snd d) (j * rwidth r + i) = rpixel r i j.
Proof.
  intros r Hr. destruct (packGlyph_any r Hr) as [data [E [A [B C]]]]. eexists. split; [exact E|].
  assert (H8 : forall v, as_int8 v (s8 v)).
  { intros v. unfold as_int8, s8. pose proof (Z.mod_pos_bound v 256 ltac:(lia)). pose proof (Z.div_mod v 256 ltac:(lia)).
    destruct (Z.ltb_spec (v mod 256) 128); (split; [lia|]); [exists (v / 256)|exists (v / 256 + 1)]; lia. }
  cbn [fst snd gw gh gshift gox goy goff]. rewrite Z.shiftr_div_pow2 by lia. change (2 ^ 16) with 65536.
  repeat (split; [reflexivity || apply H8|]). split; [exact A|]. split; [exact B|exact C].
Qed.
Print Assumptions C41_any_size.
(** a bar of 258x1 pixels 200 to the right: 33 bytes of data for a descriptor of width 2 *)
Example C41_wide :
  let r := mkRendered 1 258 33 (repeat 0xFF 33) 200 1 (260 * 65536) in
  delivered r /\ packGlyph r newBits = Ok (mkGlyph 33 2 1 4 (-56) 0, repeat 0xFF 32 ++ [0xC0], newBits).
Proof.
  split; [|vm_compute; reflexivity]. unfold delivered, bytes, is_byte. cbn [rwidth rrows rpitch rbuf].
  repeat (split; [lia || (cbn; lia)|]). apply Forall_forall. intros x Hx. apply repeat_spec in Hx. subst x. lia.
Qed.

(** C42: the converter stores the codes first..last without 0x7F..0x9F in increasing order, and code
    [c] is where the lookup of getBitmap expects it. *)
Theorem C42_codes : forall ascii,
  exists codes, completes (fun fuel => codeLoop fuel firstChar (lastChar ascii)) codes /\
    zlen codes = (if ascii then 95 else 191) /\
    (forall c, In c codes <-> firstChar <= c <= lastChar ascii /\ ~ (0x7F <= c <= 0x9F)) /\
    (forall i j a b, (i < j)%nat -> nth_error codes i = Some a -> nth_error codes j = Some b -> a < b) /\
    (forall c, In c codes -> nth_error codes (Z.to_nat (slot firstChar c)) = Some c).
Proof.
  intros ascii. exists (font_codes firstChar (lastChar ascii)). split.
  { exists 256%nat. intros fuel Hf. apply codeLoop_ok; unfold firstChar, lastChar; [left; lia|destruct ascii; lia]. }
  split; [destruct ascii; reflexivity|]. split; [intros c; apply font_codes_in|]. split.
  - unfold font_codes. generalize (Z.to_nat (lastChar ascii - firstChar + 1)) as n. generalize firstChar as z.
    intros z n. revert z. induction n as [|n IH]; intros z i j a b Hij Ea Eb; cbn [count_up filter] in *; [destruct i; discriminate|].
    destruct ((z <? 127) || (159 <? z)); [|eapply IH; eassumption].
    destruct j as [|j]; [lia|]. cbn [nth_error] in Eb. destruct i as [|i]; cbn [nth_error] in Ea.
    + injection Ea as <-. apply nth_error_In in Eb. apply filter_In in Eb. destruct Eb as [Eb _]. apply in_count_up in Eb. lia.
    + eapply (IH (z + 1) i j); [lia|exact Ea|exact Eb].
  - intros c Hc. apply font_codes_in in Hc. destruct Hc as [Hc Hg].
    apply (stored_slot firstChar (lastChar ascii) c); [unfold firstChar; lia|exact Hc|exact Hg].
Qed.
Print Assumptions C42_codes.
(** with unsigned char, or for codes below 0x80, getBitmap uses exactly that entry *)
Theorem C42_lookup : forall ascii sg f c fuel,
  font_typed f -> first f = firstChar -> last f = lastChar ascii -> zlen (glyphs f) = (if ascii then 95 else 191) ->
  firstChar <= c <= lastChar ascii -> ~ (0x7F <= c <= 0x9F) -> own_value sg c -> (1 <= fuel)%nat ->
  entry_view f (slot firstChar c) (getBitmap fuel sg f (as_char sg c)).
Proof.
  intros ascii sg f c fuel Hf H1 H2 H3 Hc Hg Ho Hfu.
  assert (Hc2 : 0 <= c < 256) by (unfold firstChar, lastChar in Hc; destruct ascii; lia).
  destruct (C36_lookup sg f c Hf Hc2) as [L _]. rewrite <- H1. apply L; [|exact Hfu].
  split; [exact Ho|]. rewrite H1, H2, H3. split; [exact Hc|]. unfold slot, firstChar, lastChar in *.
  destruct (Z.ltb_spec c 127); destruct ascii; lia.
Qed.
Print Assumptions C42_lookup.
Example C42_case :
  codeLoop 300 125 162 = Ok [125; 126; 160; 161; 162] /\ own_value false 0xE9 /\ slot firstChar 0xE9 = 168.
Proof. split; [reflexivity|]. split; [left; reflexivity|reflexivity]. Qed.

(** C43: offsets are the byte totals of the data before, modulo 65536. *)
Theorem C43_offsets : forall t k d,
  nth_error t k = Some d ->
  exists g, nth_error (binaryGlyphs 0 t) k = Some g /\
    goff g = total (map (fun d => zlen (snd d)) (firstn k t)) mod 65536 /\
    gw g = gw (fst d) /\ gh g = gh (fst d) /\ gshift g = gshift (fst d) /\ gox g = gox (fst d) /\ goy g = goy (fst d).
Proof.
  intros t k d E. eexists. split; [apply binaryGlyphs_nth; [lia|exact E]|]. cbn [goff gw gh gshift gox goy].
  rewrite Z.add_0_l. unfold u16. repeat split.
Qed.
Print Assumptions C43_offsets.
(** up to 65536 bytes every glyph's data is at its offset in the bitmap file, and the ranges are in
    order and do not overlap *)
Theorem C43_in_place : forall t k d g,
  zlen (bitmapsFile t) <= 65536 -> nth_error t k = Some d -> nth_error (binaryGlyphs 0 t) k = Some g ->
  slice (bitmapsFile t) (goff g) (zlen (snd d)) = snd d /\
  forall k' d' g', (k < k')%nat -> nth_error t k' = Some d' -> nth_error (binaryGlyphs 0 t) k' = Some g' -> 0 < zlen (snd d') ->
    goff g + zlen (snd d) <= goff g'.
Proof.
  intros t k d g HT Ed Eg.
  assert (Hoff : forall k d, nth_error t k = Some d -> 0 <= total (map (fun d => zlen (snd d)) (firstn k t)) /\
            total (map (fun d => zlen (snd d)) (firstn k t)) + zlen (snd d) <= 65536).
  { intros k0 d0 E0. split; [apply total_nonneg; intros x; apply zlen_nonneg|]. pose proof (data_end t k0 d0 E0). lia. }
  assert (Hg : forall k d g, nth_error t k = Some d -> nth_error (binaryGlyphs 0 t) k = Some g -> goff g = total (map (fun d => zlen (snd d)) (firstn k t)) mod 65536).
  { intros k0 d0 g0 E0 G0. destruct (C43_offsets t k0 d0 E0) as [g1 [G1 [H1 _]]]. congruence. }
  rewrite (Hg k d g Ed Eg). pose proof (Hoff k d Ed) as [O1 O2]. pose proof (zlen_nonneg (snd d)) as O3. split.
  - destruct (Z.eq_dec (zlen (snd d)) 0) as [Z0|Z0].
    + rewrite Z0. unfold slice. change (Z.to_nat 0) with O. cbn [firstn]. destruct (snd d); [reflexivity|rewrite zlen_cons in Z0; pose proof (zlen_nonneg l); lia].
    + rewrite Z.mod_small by lia. destruct (nth_split_concat t k d Ed) as [pre [post [-> <-]]].
      unfold slice, zlen. rewrite !Nat2Z.id. rewrite skipn_app, skipn_all, Nat.sub_diag. cbn [skipn app].
      rewrite firstn_app, firstn_all, Nat.sub_diag. cbn [firstn]. apply app_nil_r.
  - intros k' d' g' Hk Ed' Eg' Hpos. rewrite (Hg k' d' g' Ed' Eg'). pose proof (Hoff k' d' Ed') as [P1 P2].
    rewrite (Z.mod_small (total (map _ (firstn k' t)))) by lia.
    assert (HM : total (map (fun d => zlen (snd d)) (firstn k t)) + zlen (snd d) <= total (map (fun d => zlen (snd d)) (firstn k' t))).
    { clear -Ed Hk. revert k k' Ed Hk. induction t as [|x t IH]; intros k k' Ed Hk; [destruct k; discriminate|].
      destruct k' as [|k']; [lia|]. destruct k as [|k]; cbn [nth_error firstn map total] in *.
      - injection Ed as <-. pose proof (total_nonneg (fun d : glyph * list Z => zlen (snd d)) (firstn k' t) (fun x => zlen_nonneg (snd x))). lia.
      - specialize (IH k k' Ed ltac:(lia)). lia. }
    rewrite (Z.mod_small (total (map _ (firstn k t)))) by lia. exact HM.
Qed.
Print Assumptions C43_in_place.
(** the glyph file: seven bytes per glyph, from which the descriptor can be read back *)
Theorem C43_glyph_file : forall t,
  (forall d, In d t -> glyph_typed (fst d)) ->
  zlen (glyphsFile t) = 7 * zlen t /\
  forall k g, nth_error (binaryGlyphs 0 t) k = Some g ->
    read_glyph (slice (glyphsFile t) (7 * Z.of_nat k) 7) = g.
Proof.
  intros t HT. unfold glyphsFile.
  assert (HG : forall off, 0 <= off < 65536 -> Forall glyph_typed (binaryGlyphs off t)).
  { induction t as [|[g data] t IH]; intros off Ho; cbn [binaryGlyphs]; constructor.
    - specialize (HT (g, data) (or_introl eq_refl)). unfold glyph_typed in *. cbn [fst goff gw gh gshift gox goy] in *. lia.
    - apply IH; [intros d Hd; apply HT; right; exact Hd|]. unfold u16. apply Z.mod_pos_bound. lia. }
  specialize (HG 0 ltac:(lia)).
  assert (HL : zlen (binaryGlyphs 0 t) = zlen t) by (unfold zlen; rewrite binaryGlyphs_len; reflexivity).
  rewrite <- HL. clear HL HT. induction HG as [|g l Hg HG IH]; [split; [reflexivity|intros [|k] g; discriminate]|].
  destruct IH as [I1 I2]. cbn [map concat]. split.
  - rewrite zlen_app, I1, zlen_cons. change (zlen (glyphBytes g)) with 7. lia.
  - intros [|k] g' E; cbn [nth_error] in E.
    + injection E as <-. change (slice (glyphBytes g ++ concat (map glyphBytes l)) (7 * Z.of_nat 0) 7) with (glyphBytes g).
      apply read_glyphBytes. exact Hg.
    + rewrite <- (I2 k g' E). f_equal. unfold slice.
      replace (Z.to_nat (7 * Z.of_nat (S k))) with (7 + Z.to_nat (7 * Z.of_nat k))%nat by lia. reflexivity.
Qed.
Print Assumptions C43_glyph_file.
Example C43_case :
  let t := [(mkGlyph 2 5 3 6 0 (-3), [0xFC; 0x7E]); (mkGlyph 1 2 2 3 1 (-1), [0x90])] in
  bitmapsFile t = [0xFC; 0x7E; 0x90] /\
  glyphsFile t = [0; 0; 5; 3; 6; 0; 253; 2; 0; 2; 2; 3; 1; 255] /\
  map goff (binaryGlyphs 65534 t) = [65534; 0].
Proof. repeat split. Qed.

(** C41, end to end: convert with FreeType, draw with the canvas.  For a single-byte encoding, every
    character of the table but the last (see C37) is drawn as it was rendered. *)
Theorem C41_drawn : forall iconv u render ascii,
  single_byte iconv u ->
  (forall c, firstChar <= c <= lastChar ascii -> rendered_ok (render (u c))) ->
  total (map (fun c => rsize (render (u c))) (font_codes firstChar (lastChar ascii))) <= 65535 ->
  exists t, completes (fun fuel => makeTable fuel iconv render firstChar (lastChar ascii)) t /\
    let f := mkFont (bitmapsFile t) (binaryGlyphs 0 t) firstChar (lastChar ascii) in
    forall sg code c pos,
      In code (font_codes firstChar (lastChar ascii)) -> code <> lastChar ascii -> own_value sg code ->
      in_reach c pos 0 ->
      paints c (fun fuel => do r <- drawCharAt fuel sg c f pos (as_char sg code); Ok (fst r))
        (fun q => exists i j, 0 <= i < rwidth (render (u code)) /\ 0 <= j < rrows (render (u code)) /\
           rpixel (render (u code)) i j = true /\
           q = (fst pos + rleft (render (u code)) + i, snd pos + (1 - rtop (render (u code))) + j)) /\
      completes (fun fuel => do r <- drawCharAt fuel sg c f pos (as_char sg code); Ok (snd r))
        (u8 (radvance (render (u code)) / 65536)).
Proof.
  intros iconv u render ascii Hic Hr Htot.
  set (codes := font_codes firstChar (lastChar ascii)) in *.
  assert (Hin : forall c, In c codes -> firstChar <= c <= lastChar ascii /\ ~ (127 <= c <= 159)) by (intros c; apply font_codes_in).
  assert (Hlast : lastChar ascii < 256) by (destruct ascii; cbn; lia).
  destruct (tableLoop_ok iconv u render codes newEncoder Hic) as [t [Et Ft]].
  { intros c Hc. apply Hin in Hc. unfold firstChar in Hc. lia. }
  { intros c Hc. apply Hr. apply Hin. exact Hc. }
  { split; [reflexivity|cbn; lia]. }
  { reflexivity. }
  exists t. split.
  { exists 256%nat. intros fuel Hf. unfold makeTable.
    rewrite codeLoop_ok; [exact Et|left; unfold firstChar; lia|unfold firstChar; lia]. }
  intros f sg code c pos Hc Hnl Ho Hreach.
  assert (HT : font_typed f).
  { apply (table_font_typed codes (fun c => render (u c)) t firstChar (lastChar ascii)); [unfold firstChar; lia|destruct ascii; cbn; lia|exact Ft|].
    intros x Hx. apply Hr. apply Hin. exact Hx. }
  destruct (Hin code Hc) as [Hc1 Hc2].
  assert (HLc : zlen codes = (if ascii then 95 else 191)) by (unfold codes; destruct ascii; reflexivity).
  assert (HLt : zlen t = zlen codes) by (unfold zlen; rewrite (Forall2_len _ _ _ Ft); reflexivity).
  assert (HLg : zlen (glyphs f) = zlen codes) by (rewrite <- HLt; unfold f, zlen; cbn [glyphs]; rewrite binaryGlyphs_len; reflexivity).
  destruct (stored_slot firstChar (lastChar ascii) code ltac:(unfold firstChar; lia) Hc1 Hc2) as [Hk0 Hk]. fold codes in Hk.
  set (k := slot firstChar code) in *.
  assert (HkL : k + 1 < zlen codes).
  { rewrite HLc. unfold k, slot, firstChar, lastChar in *. destruct (Z.ltb_spec code 127), ascii; lia. }
  destruct (Forall2_nth _ _ _ Ft _ _ Hk) as [d [Ed Hd]].
  destruct Hd as [D1 [D2 [D3 [D4 [D5 [D6 [D7 [D8 D9]]]]]]]].
  set (r := render (u code)) in *.
  pose proof (Hr code Hc1) as Rok. fold r in Rok. pose proof Rok as [R1 [R2 _]].
  set (off := total (map (fun d => zlen (snd d)) (firstn (Z.to_nat k) t))).
  assert (Htot2 : zlen (bitmapsFile t) <= 65535).
  { unfold bitmapsFile. rewrite concat_len. etransitivity; [|exact Htot].
    clear -Ft. induction Ft as [|c d codes t Hd _ IH]; cbn [map total]; [lia|]. destruct Hd as [_ [_ [_ [_ [_ [_ [_ [H _]]]]]]]]. rewrite H. lia. }
  assert (Hoff : 0 <= off) by (apply total_nonneg; intros x; apply zlen_nonneg).
  assert (Hend : off + zlen (snd d) <= zlen (bitmapsFile t)) by (apply data_end; exact Ed).
  assert (Eg : nth_error (glyphs f) (Z.to_nat k) = Some (mkGlyph off (rwidth r) (rrows r) (u8 (radvance r / 65536)) (rleft r) (1 - rtop r))).
  { cbn [f glyphs]. rewrite (binaryGlyphs_nth t 0 (Z.to_nat k) d ltac:(lia) Ed). rewrite D1, D2, D3, D4, D5. fold off.
    unfold u16. rewrite Z.add_0_l, Z.mod_small by (pose proof (zlen_nonneg (snd d)); lia). reflexivity. }
  set (g := mkCB off (u16 (zlen (bitmap f) - off)) (rwidth r) (rrows r) (rleft r) (1 - rtop r) (u8 (radvance r / 65536))) in *.
  assert (Hg : completes (fun fuel => getBitmap fuel sg f (as_char sg code)) g).
  { exists 1%nat. intros fuel Hfu.
    destruct (C42_lookup ascii sg f code fuel HT eq_refl eq_refl ltac:(rewrite HLg; exact HLc) Hc1 Hc2 Ho Hfu) as [g' [Eg' [_ [_ V]]]].
    fold k in Eg', V. rewrite Eg in Eg'. injection Eg' as <-. cbn [goff gw gh gox goy gshift] in V.
    apply V; [rewrite HLg; exact HkL|]. cbn [f bitmap]. pose proof (zlen_nonneg (snd d)). lia. }
  assert (HI : data_inside f g).
  { unfold data_inside, data_bytes. cbn [g cstart ew eh f bitmap]. split; [exact Hoff|]. fold (rsize r). rewrite <- D8. exact Hend. }
  destruct (C34_glyph sg c f pos (as_char sg code) g Hreach HT Hg) as [P _]. destruct (P HI) as [P1 P2]. split; [|exact P2].
  eapply paints_ext; [|exact P1]. intros q. cbv beta. unfold glyph_pixels. cbn [g cstart ew eh cox coy fst snd f bitmap].
  assert (HB : forall i j, 0 <= i < rwidth r -> 0 <= j < rrows r -> img_bit (bitmapsFile t) (8 * off + j * rwidth r + i) = rpixel r i j).
  { intros i j Hi Hj. rewrite <- (D9 i j Hi Hj). rewrite <- Z.add_assoc. apply bitmaps_bit; [exact Ed|]. rewrite D8. unfold rsize.
    assert (0 <= j * rwidth r + i < rwidth r * rrows r) by nia. Z.div_mod_to_equations. lia. }
  split.
  - intros [i [j [Hi [Hj [Hq Hbit]]]]]. exists i, j. rewrite HB in Hbit by assumption. rewrite Hq. auto.
  - intros [i [j [Hi [Hj [Hbit Hq]]]]]. exists i, j. rewrite HB by assumption. rewrite Hq. auto.
Qed.
Print Assumptions C41_drawn.
(** a character rendered as a 5x3 ring with a row pitch of two bytes *)
Definition ringch : rendered := mkRendered 3 5 2 [0xF8; 0; 0x88; 0; 0xF8; 0] 0 4 (6 * 65536).
Example C41_case :
  rendered_ok ringch /\ packGlyph ringch newBits = Ok (mkGlyph 2 5 3 6 0 (-3), [0xFC; 0x7E], newBits) /\
  single_byte (fun _ l => match l with [c] => Converted [c; 0; 0; 0] | _ => IconvError end) (fun c => c) /\
  (do t <- makeTable 300 (fun _ l => match l with [c] => Converted [c; 0; 0; 0] | _ => IconvError end) (fun _ => ringch) firstChar 126;
   show (do r <- drawCharAt 5 true board (mkFont (bitmapsFile t) (binaryGlyphs 0 t) firstChar 126) (1, 4) 65; Ok (fst r)))
  = Ok [0; 0; 0x7C; 0; 0x44; 0; 0x7C; 0; 0; 0; 0; 0; 0; 0; 0; 0].
Proof.
  split. { unfold rendered_ok, ringch, bytes, is_byte. cbn. repeat split; try lia. repeat constructor; lia. }
  split; [reflexivity|]. split; [|vm_compute; reflexivity].
  intros n c Hc. exists c, 0, 0, 0. split; [reflexivity|lia].
Qed.

(** C45: one call of the EncodingConverter: it gives iconv the pending bytes and the new one, never
    overruns its buffer, and keeps the pending bytes also after a successful conversion. *)
Theorem C45_step : forall iconv s e,
  encoder_ok e ->
  exists e', encoder_ok e' /\ calls e' = S (calls e) /\
    convertBytes iconv s e = Ok (match iconv (calls e) (pending e ++ [s]) with Converted out => out | _ => [] end, e') /\
    pending e' = match iconv (calls e) (pending e ++ [s]) with
                 | Converted _ => pending e
                 | Incomplete => if zlen (pending e) =? 2 then [] else pending e ++ [s]
                 | IconvError => []
                 end.
Proof. exact convertBytes_step. Qed.
Print Assumptions C45_step.
Fixpoint convertAll (iconv : nat -> list Z -> iconvResult) (l : list Z) (e : encoder) : res (list (list Z) * encoder) :=
  match l with
  | [] => Ok ([], e)
  | s :: l => do ' (out, e) <- convertBytes iconv s e; do ' (outs, e) <- convertAll iconv l e; Ok (out :: outs, e)
  end.
(** no sequence of calls overruns the buffer, whatever iconv does *)
Theorem C45_inside : forall iconv l, exists outs e, convertAll iconv l newEncoder = Ok (outs, e) /\ encoder_ok e /\ zlen outs = zlen l.
Proof.
  intros iconv l. assert (H0 : encoder_ok newEncoder) by (split; [reflexivity|cbn; lia]). revert H0. generalize newEncoder as e.
  induction l as [|s l IH]; intros e He; cbn [convertAll]; [exists [], e; auto|].
  destruct (convertBytes_step iconv s e He) as [e' [He' [_ [E _]]]]. rewrite E. cbn [bind].
  destruct (IH e' He') as [outs [e2 [E2 [He2 HL]]]]. rewrite E2. cbn [bind]. do 2 eexists. split; [reflexivity|]. split; [exact He2|].
  rewrite !zlen_cons, HL. reflexivity.
Qed.
Print Assumptions C45_inside.
(** if iconv never finds a single byte incomplete, every call converts its own byte only *)
Theorem C45_single : forall iconv l,
  (forall n c, In c l -> iconv n [c] <> Incomplete) ->
  exists e, convertAll iconv l newEncoder =
    Ok (map (fun p => match iconv (fst p) [snd p] with Converted out => out | _ => [] end) (combine (seq 0 (length l)) l), e).
Proof.
  intros iconv l. assert (G : forall l e, encoder_ok e -> pending e = [] -> (forall n c, In c l -> iconv n [c] <> Incomplete) ->
    exists e', convertAll iconv l e =
      Ok (map (fun p => match iconv (fst p) [snd p] with Converted out => out | _ => [] end) (combine (seq (calls e) (length l)) l), e')).
  { clear l. induction l as [|s l IH]; intros e He Hp H; cbn [convertAll]; [exists e; reflexivity|].
    destruct (convertBytes_step iconv s e He) as [e' [He' [Hcl [E P]]]]. rewrite Hp in E, P. cbn [app] in E, P. rewrite E. cbn [bind].
    assert (Hp' : pending e' = []).
    { rewrite P. pose proof (H (calls e) s (or_introl eq_refl)). destruct (iconv (calls e) [s]); [reflexivity|congruence|reflexivity]. }
    destruct (IH e' He' Hp') as [e2 E2]; [intros n c Hc; apply H; right; exact Hc|]. rewrite E2. cbn [bind].
    exists e2. rewrite Hcl. reflexivity. }
  intros H. apply (G l newEncoder); [split; [reflexivity|cbn; lia]|reflexivity|exact H].
Qed.
Print Assumptions C45_single.
(** after a completed two-byte sequence the lead byte stays: the next symbol is converted with it *)
Theorem C45_independent_refuted : exists iconv l outs e,
  convertAll iconv l newEncoder = Ok (outs, e) /\ l = [0xC3; 0xA9; 65] /\ outs = [[]; [0xC3; 0xA9]; [0xC3; 65]] /\
  iconv 2%nat [65] = Converted [65].
Proof.
  exists (fun _ l => match l with [0xC3] => Incomplete | _ => Converted l end), [0xC3; 0xA9; 65].
  do 2 eexists. split; [vm_compute; reflexivity|]. repeat split.
Qed.
Print Assumptions C45_independent_refuted.
Example C45_case : encoder_ok newEncoder /\
  (do ' (outs, e) <- convertAll (fun _ l => if zlen l <? 3 then Incomplete else IconvError) [1; 2; 3; 4] newEncoder; Ok (outs, inSize e, ebuf e))
  = Ok ([[]; []; []; []], 1, [4; 2; 3; 0]).
Proof. split; [split; [reflexivity|cbn; lia]|vm_compute; reflexivity]. Qed.
