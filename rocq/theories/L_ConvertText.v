(** Texts in a converted font. *)
From Verif Require Import Base S_Graphics S_Paint S_Font S_Packing S_Header M_Geometry M_Canvas M_Font M_Packing L_Font L_Packing P_Font P_Packing.

(** everything about one stored character *)
Lemma stored_glyph (u : Z -> Z) (render : Z -> rendered) ascii t sg code :
  (forall c, firstChar <= c <= lastChar ascii -> rendered_ok (render (u c))) ->
  Forall2 (fun c d => holds (render (u c)) d) (font_codes firstChar (lastChar ascii)) t -> zlen (bitmapsFile t) <= 65535 ->
  In code (font_codes firstChar (lastChar ascii)) -> code <> lastChar ascii -> own_value sg code ->
  let f := mkFont (bitmapsFile t) (binaryGlyphs 0 t) firstChar (lastChar ascii) in
  let r := render (u code) in
  exists g, completes (fun fuel => getBitmap fuel sg f (as_char sg code)) g /\ data_inside f g /\ cwidth g = rendered_advance r /\
    forall o q, glyph_pixels (bitmap f) g (fst o + cox g, snd o + coy g) q <->
      exists i j, 0 <= i < rwidth r /\ 0 <= j < rrows r /\ rpixel r i j = true /\ q = (fst o + rleft r + i, snd o + (1 - rtop r) + j).
Proof.
  intros Hr Ft Htot2 Hc Hnl Ho f r.
  set (codes := font_codes firstChar (lastChar ascii)) in *.
  assert (Hin : forall c, In c codes -> firstChar <= c <= lastChar ascii /\ ~ (127 <= c <= 159)) by (intros c; apply font_codes_in).
  assert (Hlast : lastChar ascii < 256) by (destruct ascii; cbn; lia).
  assert (HT : font_typed f).
  { apply (table_font_typed codes (fun c => render (u c)) t firstChar (lastChar ascii)); [unfold firstChar; lia|destruct ascii; cbn; lia|exact Ft|].
    intros x Hx. apply Hr. apply Hin. exact Hx. }
  destruct (Hin code Hc) as [Hc1 Hc2].
  assert (HLc : zlen codes = (if ascii then 95 else 191)) by (unfold codes; destruct ascii; reflexivity).
  assert (HLt : zlen t = zlen codes) by (unfold zlen; rewrite (Forall2_len _ _ _ Ft); reflexivity).
  assert (HLg : zlen (glyphs f) = zlen codes) by (rewrite <- HLt; unfold f, zlen; cbn [glyphs]; rewrite binaryGlyphs_len; reflexivity).
  destruct (stored_slot firstChar (lastChar ascii) code ltac:(unfold firstChar; lia) Hc1 Hc2) as [Hk0 Hk]. fold codes in Hk.
  set (k := slot firstChar code) in *.
  assert (HkL : k + 1 < zlen codes).
  { rewrite HLc. unfold k, slot, firstChar, lastChar in *. destruct (Z.ltb_spec code 127), ascii; lia. }
  destruct (Forall2_nth _ _ _ Ft _ _ Hk) as [d [Ed Hd]].
  destruct Hd as [D1 [D2 [D3 [D4 [D5 [D6 [D7 [D8 D9]]]]]]]]. fold r in D1, D2, D3, D4, D5, D6, D8, D9.
  pose proof (Hr code Hc1) as Rok. fold r in Rok. pose proof Rok as [R1 [R2 _]].
  set (off := total (map (fun d => zlen (snd d)) (firstn (Z.to_nat k) t))).
  assert (Hoff : 0 <= off) by (apply total_nonneg; intros x; apply zlen_nonneg).
  assert (Hend : off + zlen (snd d) <= zlen (bitmapsFile t)) by (apply data_end; exact Ed).
  assert (Eg : nth_error (glyphs f) (Z.to_nat k) = Some (mkGlyph off (rwidth r) (rrows r) (u8 (radvance r / 65536)) (rleft r) (1 - rtop r))).
  { cbn [f glyphs]. rewrite (binaryGlyphs_nth t 0 (Z.to_nat k) d ltac:(lia) Ed). rewrite D1, D2, D3, D4, D5. fold off.
    unfold u16. rewrite Z.add_0_l, Z.mod_small by (pose proof (zlen_nonneg (snd d)); lia). reflexivity. }
  set (g := mkCB off (u16 (zlen (bitmap f) - off)) (rwidth r) (rrows r) (rleft r) (1 - rtop r) (u8 (radvance r / 65536))) in *.
  exists g.
  assert (Hg : completes (fun fuel => getBitmap fuel sg f (as_char sg code)) g).
  { exists 1%nat. intros fuel Hfu.
    destruct (C42_lookup ascii sg f code fuel HT eq_refl eq_refl ltac:(rewrite HLg; exact HLc) Hc1 Hc2 Ho Hfu) as [g' [Eg' [_ [_ V]]]].
    fold k in Eg', V. rewrite Eg in Eg'. injection Eg' as <-. cbn [goff gw gh gox goy gshift] in V.
    apply V; [rewrite HLg; exact HkL|]. cbn [f bitmap]. pose proof (zlen_nonneg (snd d)). lia. }
  split; [exact Hg|]. split.
  { unfold data_inside, data_bytes. cbn [g cstart ew eh f bitmap]. split; [exact Hoff|]. fold (rsize r). rewrite <- D8. exact Hend. }
  split; [reflexivity|]. intros o q. unfold glyph_pixels. cbn [g cstart ew eh cox coy fst snd f bitmap].
  assert (HB : forall i j, 0 <= i < rwidth r -> 0 <= j < rrows r -> img_bit (bitmapsFile t) (8 * off + j * rwidth r + i) = rpixel r i j).
  { intros i j Hi Hj. rewrite <- (D9 i j Hi Hj). rewrite <- Z.add_assoc. apply bitmaps_bit; [exact Ed|]. rewrite D8. unfold rsize.
    assert (0 <= j * rwidth r + i < rwidth r * rrows r) by nia. Z.div_mod_to_equations. lia. }
  split.
  - intros [i [j [Hi [Hj [Hq Hbit]]]]]. exists i, j. rewrite HB in Hbit by assumption. rewrite Hq. auto.
  - intros [i [j [Hi [Hj [Hbit Hq]]]]]. exists i, j. rewrite HB by assumption. rewrite Hq. auto.
Qed.
Lemma stored_glyphs (u : Z -> Z) (render : Z -> rendered) ascii t sg text :
  (forall c, firstChar <= c <= lastChar ascii -> rendered_ok (render (u c))) ->
  Forall2 (fun c d => holds (render (u c)) d) (font_codes firstChar (lastChar ascii)) t -> zlen (bitmapsFile t) <= 65535 ->
  (forall b, In b text -> In b (font_codes firstChar (lastChar ascii)) /\ b <> lastChar ascii /\ own_value sg b) ->
  let f := mkFont (bitmapsFile t) (binaryGlyphs 0 t) firstChar (lastChar ascii) in
  exists gs, Forall2 (fun b g => completes (fun fuel => getBitmap fuel sg f (as_char sg b)) g) text gs /\ Forall (data_inside f) gs /\
    advance gs = total (map rendered_advance (map (fun b => render (u b)) text)) /\
    forall pos q, text_pixels (bitmap f) gs pos q <-> rendered_text (map (fun b => render (u b)) text) pos q.
Proof.
  intros Hr Ft Ht. induction text as [|b text IH]; intros Hb f.
  - exists []. split; [constructor|]. split; [constructor|]. split; [reflexivity|]. intros pos q. split.
    + intros [n [g [E _]]]. destruct n; discriminate.
    + intros [n [g [i [j [E _]]]]]. destruct n; discriminate.
  - destruct (Hb b (or_introl eq_refl)) as [B1 [B2 B3]].
    destruct (stored_glyph u render ascii t sg b Hr Ft Ht B1 B2 B3) as [g [G1 [G2 [G3 G4]]]]. fold f in G1, G2, G4.
    destruct (IH (fun x Hx => Hb x (or_intror Hx))) as [gs [S1 [S2 [S3 S4]]]]. fold f in S1, S2, S4.
    exists (g :: gs). split; [constructor; assumption|]. split; [constructor; assumption|]. split; [cbn [advance map total]; rewrite G3, S3; reflexivity|].
    intros pos q. split.
    + intros [[|n] [g' [E P]]]; cbn [nth_error] in E.
      * injection E as <-. cbn [firstn advance] in P. apply (G4 (fst pos + 0, snd pos)) in P. destruct P as [i [j [A [B [C D]]]]]. exists O, (render (u b)), i, j. cbn [map nth_error firstn total fst snd] in *. auto.
      * destruct (proj1 (S4 (fst pos + cwidth g, snd pos) q)) as [m [r [i [j [Em [A [B [C D]]]]]]]].
        { exists n, g'. split; [exact E|]. cbn [firstn advance] in P. cbn [fst snd]. replace (fst pos + cwidth g + advance (firstn n gs)) with (fst pos + (cwidth g + advance (firstn n gs))) by lia. exact P. }
        exists (S m), r, i, j. cbn [map nth_error firstn total fst snd] in *. rewrite G3 in D. repeat (split; [assumption|]). rewrite D. f_equal; lia.
    + intros [[|n] [r [i [j [E [A [B [C D]]]]]]]]; cbn [map nth_error firstn total] in E, D.
      * injection E as <-. exists O, g. split; [reflexivity|]. cbn [firstn advance]. apply (G4 (fst pos + 0, snd pos)). exists i, j. auto.
      * destruct (proj2 (S4 (fst pos + cwidth g, snd pos) q)) as [m [g' [Em P]]].
        { exists n, r, i, j. repeat (split; [assumption|]). cbn [fst snd]. rewrite D, G3. f_equal; lia. }
        exists (S m), g'. split; [exact Em|]. cbn [firstn advance]. cbn [fst snd] in P. replace (fst pos + (cwidth g + advance (firstn m gs))) with (fst pos + cwidth g + advance (firstn m gs)) by lia. exact P.
Qed.
