(** Properties C34-C39 (fonts and text). *)
From Verif Require Import Base S_Graphics S_Ranges S_Font S_Paint S_TextRoom M_Geometry M_FrameBuffer M_Canvas M_Font M_FontData L_Geometry L_FrameBuffer L_Canvas L_Circle L_Paint L_Font L_TextRoom P_TextRoom.

(** a small font: 'A' is 5x3, 'B' is 2x2, and the last entry can never be used *)
Definition tiny : font :=
  mkFont [0xFC; 0x7E; 0x90; 0]
    [mkGlyph 0 5 3 6 0 (-3); mkGlyph 2 2 2 3 1 (-1); mkGlyph 3 1 1 4 0 0] 65 67.
Definition board : canvas := mkCanvas 16 8 R0.
Definition boardf : fb := mkFb 16 8 1 (repeat 0 16) 1.
Definition show (r : res (list pt)) : res (list Z) :=
  do l <- r; do f <- draw board boardf l; Ok (getImage f).

(** C34: a glyph whose data is inside the bitmap is painted bit for bit and its advance returned; a
    glyph whose data is not inside is read out of bounds. *)
Theorem C34_glyph : forall sg c f pos s g,
  in_reach c pos 0 -> font_typed f -> completes (fun fuel => getBitmap fuel sg f s) g ->
  (data_inside f g ->
     paints c (fun fuel => do r <- drawCharAt fuel sg c f pos s; Ok (fst r))
       (glyph_pixels (bitmap f) g (fst pos + cox g, snd pos + coy g)) /\
     completes (fun fuel => do r <- drawCharAt fuel sg c f pos s; Ok (snd r)) (cwidth g)) /\
  (~ data_inside f g -> exists n, forall fuel, (n <= fuel)%nat -> drawCharAt fuel sg c f pos s = UB).
Proof.
  intros sg c f pos s g Hc Hf [n Hn]. assert (Hs : sized c) by (unfold in_reach in Hc; unfold sized, INT_MAX; lia).
  pose proof (getBitmap_typed _ _ _ _ _ Hf (Hn n (Nat.le_refl n))) as T. split.
  - intros Hd. apply C84_glyph; [exact Hs|exact Hf|]. split; [exists n; exact Hn|]. split; [exact Hd|].
    destruct pos as [x y]. apply reach_glyph; [exact Hc|apply T..].
  - intros Hd. exists n. intros fuel Hfu. apply (drawCharAt_outside c Hs fuel sg f pos s g); auto.
Qed.
Print Assumptions C34_glyph.

(** C34: only the ceil(w*h/8) bytes of the glyph matter: fonts that give the symbol the same metrics
    and the same data bytes draw it the same, whatever the rest of their bitmaps (this includes
    undefined behaviour). *)
Theorem C34_reads : forall fuel sg c f f' pos s g g',
  font_typed f -> getBitmap fuel sg f s = Ok g -> getBitmap fuel sg f' s = Ok g' ->
  cstart g' = cstart g -> ew g' = ew g -> eh g' = eh g -> cox g' = cox g -> coy g' = coy g -> cwidth g' = cwidth g ->
  (forall i, cstart g <= i < cstart g + data_bytes g ->
     nth_error (bitmap f') (Z.to_nat i) = nth_error (bitmap f) (Z.to_nat i)) ->
  drawCharAt fuel sg c f' pos s = drawCharAt fuel sg c f pos s.
Proof. exact drawCharAt_reads. Qed.
Print Assumptions C34_reads.

(** C33 for glyphs: the painted logical set does not depend on rotation and canvas size. *)
Theorem C33_glyph : forall sg f pos s g,
  font_typed f -> completes (fun fuel => getBitmap fuel sg f s) g -> data_inside f g ->
  exists S, forall c, in_reach c pos 0 -> paints c (fun fuel => do r <- drawCharAt fuel sg c f pos s; Ok (fst r)) S.
Proof. intros sg f pos s g Hf Hg Hd. eexists. intros c Hc. apply C34_glyph; eassumption. Qed.
Print Assumptions C33_glyph.

Example C34_case :
  getBitmap 5 true tiny 65 = Ok (mkCB 0 4 5 3 0 (-3) 6) /\
  data_inside tiny (mkCB 0 4 5 3 0 (-3) 6) /\ ~ data_inside tiny (mkCB 3 1 3 3 0 0 6) /\
  show (do r <- drawCharAt 5 true board tiny (1, 4) 65; Ok (fst r)) = Ok [0; 0; 0x7C; 0; 0x44; 0; 0x7C; 0; 0; 0; 0; 0; 0; 0; 0; 0] /\
  (* moved out of the board on the left and at the top *)
  show (do r <- drawCharAt 5 true board tiny (-1, 2) 65; Ok (fst r)) = Ok [0x10; 0; 0xF0; 0; 0; 0; 0; 0; 0; 0; 0; 0; 0; 0; 0; 0] /\
  (do r <- drawCharAt 5 true board tiny (1, 4) 65; Ok (snd r)) = Ok 6.
Proof.
  split; [reflexivity|]. split; [unfold data_inside, data_bytes; cbn; lia|]. split; [unfold data_inside, data_bytes; cbn; lia|].
  split; [vm_compute; reflexivity|]. split; vm_compute; reflexivity.
Qed.
(** C34: a glyph of 3x3 pixels needs two bytes; at the end of the bitmap the second one is missing *)
Example C34_outside_case :
  let f := mkFont [0xFF] [mkGlyph 0 3 3 4 0 0; mkGlyph 1 0 0 0 0 0] 65 66 in
  drawCharAt 5 true board f (1, 4) 65 = UB.
Proof. reflexivity. Qed.

(** C35: a text is painted glyph by glyph, each after the advances of the ones before it, on one
    baseline. *)
Theorem C35_text : forall sg c f pos text gs,
  in_reach c pos (advance gs) -> font_typed f ->
  Forall2 (fun b g => completes (fun fuel => getBitmap fuel sg f (as_char sg b)) g) text gs ->
  Forall (data_inside f) gs ->
  paints c (fun fuel => drawStringAt fuel sg c f pos text) (text_pixels (bitmap f) gs pos).
Proof.
  intros sg c f pos text gs Hc Hf Hg Hd. apply C84_plain; assumption.
Qed.
Print Assumptions C35_text.

(** C35: a concatenation is drawn as its parts, the second one moved by the advances of the first. *)
Theorem C35_concatenation : forall sg c f pos t1 t2 gs l1 l2,
  Forall2 (fun b g => completes (fun fuel => getBitmap fuel sg f (as_char sg b)) g) t1 gs ->
  completes (fun fuel => drawStringAt fuel sg c f pos t1) l1 ->
  completes (fun fuel => drawStringAt fuel sg c f (fst pos + advance gs, snd pos) t2) l2 ->
  completes (fun fuel => drawStringAt fuel sg c f pos (t1 ++ t2)) (l1 ++ l2).
Proof.
  intros sg c f pos t1 t2 gs l1 l2 Hg [n1 H1] [n2 H2].
  apply (completes_all (fun b fuel => getBitmap fuel sg f (as_char sg b))) in Hg. destruct Hg as [N HN].
  exists (max N (max n1 n2)). intros fuel Hfu.
  apply (drawStringAt_app fuel sg c f t1 t2 pos gs l1 l2); [apply HN; lia|apply H1; lia|apply H2; lia].
Qed.
Print Assumptions C35_concatenation.
Example C35_case :
  getBitmap 5 true tiny 66 = Ok (mkCB 2 2 2 2 1 (-1) 3) /\
  show (drawStringAt 5 true board tiny (0, 4) [66; 65; 66]) =
    Ok [0; 0; 0x1F; 0; 0x11; 0; 0x5F; 0x20; 0x20; 0x10; 0; 0; 0; 0; 0; 0] /\
  (do l <- drawStringAt 5 true board tiny (0, 4) [66; 65]; do l2 <- drawStringAt 5 true board tiny (9, 4) [66]; Ok (l ++ l2))
  = drawStringAt 5 true board tiny (0, 4) [66; 65; 66].
Proof. split; [reflexivity|]. split; vm_compute; reflexivity. Qed.

(** C36: which table entry a code gets, and when the lookup ends. *)
Theorem C36_lookup : forall sg f c,
  font_typed f -> 0 <= c < 256 ->
  (has_entry sg f c -> forall fuel, (1 <= fuel)%nat -> entry_view f (slot (first f) c) (getBitmap fuel sg f (as_char sg c))) /\
  (~ has_entry sg f c -> has_entry sg f (first f) ->
     forall fuel, (2 <= fuel)%nat -> entry_view f 0 (getBitmap fuel sg f (as_char sg c))) /\
  (~ has_entry sg f c -> ~ has_entry sg f (first f) -> forall fuel, getBitmap fuel sg f (as_char sg c) = Fuel).
Proof.
  intros sg f c Hf Hc. destruct (lookup_entry sg f c Hf Hc) as [L1 [L2 L3]]. split; [|split].
  - intros H fuel Hfu. rewrite (L1 H fuel Hfu). apply bitmapOf_entry. apply H.
  - intros H H0 fuel Hfu. rewrite (L2 H H0 fuel Hfu). apply bitmapOf_entry. destruct H0 as [_ [_ H0]].
    unfold slot in H0. destruct (first f <? 127); lia.
  - exact L3.
Qed.
Print Assumptions C36_lookup.

(** C36: the first code has an entry iff it is at most 0x7E (then it is its own value for either
    signedness), the range is not empty and the table is not empty. *)
Theorem C36_first : forall sg f,
  font_typed f -> (has_entry sg f (first f) <-> first f <= 0x7E /\ first f <= last f /\ glyphs f <> []).
Proof.
  intros sg f [Hf _]. unfold has_entry, own_value, slot. split.
  - intros [_ [H1 H2]]. destruct (Z.ltb_spec (first f) 127); [|lia]. split; [lia|]. split; [lia|].
    intros E. rewrite E in H2. change (zlen (@nil glyph)) with 0 in H2. lia.
  - intros [H1 [H2 H3]]. replace (first f <? 127) with true by lia. split; [right; lia|]. split; [lia|].
    destruct (glyphs f) as [|g l]; [congruence|]. rewrite zlen_cons. pose proof (zlen_nonneg l). lia.
Qed.
Print Assumptions C36_first.

(** C36: for the converter's layout the entry used for a code outside the gap is the one the
    converter stored for it; a code in the gap gets the entry of the code 33 below. *)
Theorem C36_converter : forall fst_ lst c,
  fst_ <= 0x7F -> fst_ <= c <= lst ->
  (~ (0x7F <= c <= 0x9F) -> nth_error (font_codes fst_ lst) (Z.to_nat (slot fst_ c)) = Some c) /\
  (0x7F <= c <= 0x9F -> slot fst_ c = slot fst_ (c - 33)).
Proof.
  intros a b c H1 H2. split; intros H; [apply (stored_slot a b c H1 H2 H)|].
  unfold slot. replace (c <? 127) with false by lia. replace (c - 33 <? 127) with true by lia. lia.
Qed.
Print Assumptions C36_converter.
Example C36_case :
  has_entry true tiny 66 /\ ~ has_entry true tiny 68 /\ ~ has_entry true tiny 200 /\ has_entry true tiny (first tiny) /\
  getBitmap 5 true tiny (as_char true 200) = Ok (mkCB 0 4 5 3 0 (-3) 6) /\
  (let empty := mkFont [] [] 65 67 in getBitmap 100 true empty 65 = Fuel) /\
  font_codes 125 162 = [125; 126; 160; 161; 162] /\ slot 125 161 = 3 /\ slot 32 0x80 = slot 32 95.
Proof.
  unfold has_entry, own_value. cbn.
  repeat split; try reflexivity; try lia; right; lia.
Qed.
(** the lookup of the 191-glyph tables where [char] is unsigned and where it is signed *)
Example C36_signed_case :
  let f := mkFont (repeat 0 200) (map (fun k => mkGlyph k 1 1 2 0 0) (count_up 191 0)) 32 255 in
  getBitmap 5 false f (as_char false 0xE9) = Ok (mkCB (0xE9 - 32 - 33) (200 - (0xE9 - 32 - 33)) 1 1 0 0 2) /\
  getBitmap 5 true f (as_char true 0xE9) = Ok (mkCB 0 200 1 1 0 0 2).
Proof. split; vm_compute; reflexivity. Qed.

(** C37: a symbol of the last entry of the table reads behind the table; every other entry gives a
    view from its offset to the end of the whole bitmap, as long as the offset is inside. *)
Theorem C37_last_entry : forall sg f c fuel,
  font_typed f -> 0 <= c < 256 -> has_entry sg f c -> slot (first f) c + 1 = zlen (glyphs f) ->
  (1 <= fuel)%nat -> getBitmap fuel sg f (as_char sg c) = UB.
Proof.
  intros sg f c fuel Hf Hc H HL Hfu. destruct (C36_lookup sg f c Hf Hc) as [L _]. destruct (L H fuel Hfu) as [g [_ [U _]]]. exact (U HL).
Qed.
Print Assumptions C37_last_entry.
Theorem C37_view : forall sg f c fuel g,
  font_typed f -> 0 <= c < 256 -> has_entry sg f c -> slot (first f) c + 1 < zlen (glyphs f) ->
  nth_error (glyphs f) (Z.to_nat (slot (first f) c)) = Some g -> (1 <= fuel)%nat ->
  (goff g <= zlen (bitmap f) ->
     exists b, getBitmap fuel sg f (as_char sg c) = Ok b /\ cstart b = goff g /\ csize b = (zlen (bitmap f) - goff g) mod 65536 /\
       ew b = gw g /\ eh b = gh g /\ cox b = gox g /\ coy b = goy g /\ cwidth b = gshift g) /\
  (zlen (bitmap f) < goff g -> getBitmap fuel sg f (as_char sg c) = UB).
Proof.
  intros sg f c fuel g Hf Hc H HL E Hfu. destruct (C36_lookup sg f c Hf Hc) as [L _]. destruct (L H fuel Hfu) as [g' [E' [_ [U V]]]].
  assert (g' = g) by congruence. subst g'. split; [|exact U]. intros Ho. eexists. split; [exact (V HL Ho)|]. repeat split.
Qed.
Print Assumptions C37_view.
Example C37_case :
  getBitmap 5 true tiny 67 = UB /\ getBitmap 5 true tiny 66 = Ok (mkCB 2 2 2 2 1 (-1) 3) /\
  csize (mkCB 2 2 2 2 1 (-1) 3) <> 1 (* the size of the glyph's own data *).
Proof. repeat split; cbn; lia. Qed.

(** C38: what getTextBounds computes ... *)
Theorem C38_bounds : forall sg f text gs,
  font_typed f -> text <> [] ->
  Forall2 (fun b g => completes (fun fuel => getBitmap fuel sg f (as_char sg b)) g) text gs ->
  (forall g0 mid gl, gs = g0 :: mid ++ [gl] -> ew g0 + advance mid + ew gl <= INT_MAX) ->
  exists r top bottom,
    completes (fun fuel => getTextBounds fuel sg f text) r /\
    (exists g0 rest, gs = g0 :: rest /\ tl r = (- cox g0, - top) /\ snd (sz r) = bottom - top /\
       (rest = [] -> fst (sz r) = ew g0) /\
       (forall mid gl, rest = mid ++ [gl] -> fst (sz r) = ew g0 + advance mid + ew gl)) /\
    (top <= 0 /\ (forall g, In g gs -> top <= coy g) /\ (top = 0 \/ exists g, In g gs /\ top = coy g)) /\
    ((forall g, In g gs -> coy g + eh g <= bottom) /\ exists g, In g gs /\ bottom = coy g + eh g).
Proof.
  intros sg f text gs Hf Hne Hg HL.
  apply (completes_all (fun b fuel => getBitmap fuel sg f (as_char sg b))) in Hg. destruct Hg as [N HN].
  destruct text as [|b text]; [congruence|].
  destruct gs as [|g gs]; [specialize (HN N (Nat.le_refl N)); inversion HN|].
  eexists. exists (tops 0 (g :: gs)), (bottoms (-255) (g :: gs)). split; [|split; [|split]].
  - exists N. intros fuel Hfu. apply getTextBounds_ok; [exact Hf|exact (HN fuel Hfu)|].
    pose proof (HN N (Nat.le_refl N)) as H0. inversion H0 as [|? ? ? ? Eg _]; subst. pose proof (getBitmap_typed _ _ _ _ _ Hf Eg) as T.
    clear - HL T. destruct gs as [|gl mid _] using rev_ind; [cbn [rest_width]; unfold INT_MAX; lia|]. rewrite rest_width_snoc. specialize (HL g mid gl eq_refl). lia.
  - exists g, gs. split; [reflexivity|]. split; [reflexivity|]. split; [reflexivity|]. split.
    + intros ->. cbn [sz fst rest_width]. apply Z.add_0_r.
    + intros mid gl ->. cbn [sz fst]. rewrite rest_width_snoc. lia.
  - apply (tops_min (g :: gs) 0).
  - destruct (bottoms_max (g :: gs) (-255)) as [_ [B C]]. split; [exact B|]. destruct C as [C|C]; [|exact C].
    exfalso. specialize (B g (or_introl eq_refl)). specialize (HN N (Nat.le_refl N)).
    assert (H : getBitmap N sg f (as_char sg b) = Ok g) by (inversion HN; assumption).
    pose proof (getBitmap_typed _ _ _ _ _ Hf H). lia.
Qed.
Print Assumptions C38_bounds.
(** the empty text *)
Theorem C38_empty : forall sg f, completes (fun fuel => getTextBounds fuel sg f []) (mkRect (0, 0) (0, 0)).
Proof. intros sg f. exists O. intros fuel _. reflexivity. Qed.
Print Assumptions C38_empty.

(** C38: ... so that a text drawn at the returned topLeft has all its pixels in the rows 0..height-1,
    and a single character also in the columns 0..width-1. *)
Theorem C38_inside : forall sg f text gs r,
  font_typed f -> text <> [] ->
  Forall2 (fun b g => completes (fun fuel => getBitmap fuel sg f (as_char sg b)) g) text gs ->
  completes (fun fuel => getTextBounds fuel sg f text) r ->
  (forall q, text_pixels (bitmap f) gs (tl r) q -> 0 <= snd q < snd (sz r)) /\
  (zlen text = 1 -> forall q, text_pixels (bitmap f) gs (tl r) q -> 0 <= fst q < fst (sz r)).
Proof.
  intros sg f text gs r Hf Hne Hg Hr. pose proof (measured_width sg f text gs r Hf Hg Hr) as HL.
  destruct (C38_bounds sg f text gs Hf Hne Hg HL) as [r' [top [bottom [Hr' [[g0 [rest [Egs [Etl [Ehh [Hone _]]]]]] [[_ [Ht _]] [Hb _]]]]]]].
  rewrite <- (completes_unique _ r r' Hr Hr') in *. rewrite Etl, Ehh. split.
  - intros q [n [g [E [i [j [Hi [Hj [-> _]]]]]]]]. cbn [fst snd]. apply nth_error_In in E. specialize (Ht g E). specialize (Hb g E). lia.
  - intros H1 q [n [g [E [i [j [Hi [Hj [-> _]]]]]]]]. cbn [fst snd]. subst gs.
    assert (rest = []).
    { assert (L : length text = length (g0 :: rest)) by (clear -Hg; induction Hg; cbn [length]; congruence).
      unfold zlen in H1. destruct rest; [reflexivity|cbn [length] in L; lia]. }
    subst rest. rewrite Hone by reflexivity. destruct n as [|[|n]]; cbn [nth_error] in E; [|discriminate|discriminate].
    injection E as <-. cbn [firstn advance]. lia.
Qed.
Print Assumptions C38_inside.

(** C38: in a longer text the box of the last glyph ends at the returned width iff the first glyph's
    advance and the last one's offset happen to make up for the first one's offset and width. *)
Theorem C38_width : forall sg f text g0 mid gl r,
  font_typed f -> text <> [] ->
  Forall2 (fun b g => completes (fun fuel => getBitmap fuel sg f (as_char sg b)) g) text (g0 :: mid ++ [gl]) ->
  completes (fun fuel => getTextBounds fuel sg f text) r ->
  fst (tl r) + advance (g0 :: mid) + cox gl + ew gl = fst (sz r) + ((cwidth g0 + cox gl) - (cox g0 + ew g0)).
Proof.
  intros sg f text g0 mid gl r Hf Hne Hg Hr. pose proof (measured_width sg f text _ r Hf Hg Hr) as HL.
  destruct (C38_bounds sg f text _ Hf Hne Hg HL) as [r' [top [bottom [Hr' [[g0' [rest [Egs [Etl [_ [_ Hw]]]]]] _]]]]].
  rewrite <- (completes_unique _ r r' Hr Hr') in *. injection Egs as <- <-. rewrite (Hw mid gl eq_refl), Etl. cbn [fst advance]. lia.
Qed.
Print Assumptions C38_width.

(** C38: the rectangle does not hold the text: "ii" in the shipped font. *)
Lemma shipped_typed : font_typed FreeSans15pt7b.
Proof.
  assert (H : forallb (fun g => (0 <=? goff g) && (goff g <? 65536) && (0 <=? gw g) && (gw g <? 256) && (0 <=? gh g) && (gh g <? 256) &&
      (0 <=? gshift g) && (gshift g <? 256) && (-128 <=? gox g) && (gox g <? 128) && (-128 <=? goy g) && (goy g <? 128)) (glyphs FreeSans15pt7b) = true)
    by (vm_compute; reflexivity).
  assert (H2 : forallb (fun b => (0 <=? b) && (b <? 256)) (bitmap FreeSans15pt7b) = true) by (vm_compute; reflexivity).
  split; [unfold FreeSans15pt7b; cbn [first]; lia|]. split; [unfold FreeSans15pt7b; cbn [last]; lia|]. rewrite forallb_forall in H, H2. split.
  - apply Forall_forall. intros x Hx. specialize (H2 x Hx). unfold is_byte; lia.
  - apply Forall_forall. intros g Hg. specialize (H g Hg). unfold glyph_typed. lia.
Qed.
Theorem C38_inside_refuted : exists f text gs r q,
  font_typed f /\ Forall2 (fun b g => completes (fun fuel => getBitmap fuel true f (as_char true b)) g) text gs /\
  Forall (data_inside f) gs /\ completes (fun fuel => getTextBounds fuel true f text) r /\
  text_pixels (bitmap f) gs (tl r) q /\ ~ in_box (0, 0) (sz r) q.
Proof.
  remember (getBitmap 2 true FreeSans15pt7b 105) as g eqn:E. vm_compute in E. destruct g as [g| |]; try discriminate.
  exists FreeSans15pt7b, [105; 105], [g; g], (mkRect (-2, 20) (6, 21)), (6, 0).
  assert (Hc : completes (fun fuel => getBitmap fuel true FreeSans15pt7b (as_char true 105)) g).
  { exists 1%nat. intros [|fuel] Hfu; [lia|]. apply Ok_inj in E. subst g. vm_compute. reflexivity. }
  split; [exact shipped_typed|]. split; [repeat constructor; exact Hc|].
  apply Ok_inj in E. subst g.
  split. { repeat constructor; cbn [cstart]; try lia; unfold FreeSans15pt7b; cbn [bitmap]; vm_compute; discriminate. }
  split. { exists 1%nat. intros [|fuel] Hfu; [lia|]. vm_compute. reflexivity. }
  split. { exists 1%nat. eexists. split; [reflexivity|]. exists 0, 0. cbn [ew eh cox coy cwidth cstart fst snd tl sz firstn advance].
           split; [lia|]. split; [lia|]. split; [reflexivity|]. vm_compute. reflexivity. }
  unfold in_box. cbn [fst snd sz]. lia.
Qed.
Print Assumptions C38_inside_refuted.
Example C38_case :
  getTextBounds 5 true tiny [66; 65; 66] = Ok (mkRect (-1, 3) (2 + 6 + 2, 1 + 3)) /\
  getTextBounds 5 true tiny [65] = Ok (mkRect (0, 3) (5, 3)) /\
  getTextBounds 5 true FreeSans15pt7b [105; 105] = Ok (mkRect (-2, 20) (6, 21)).
Proof. repeat split; vm_compute; reflexivity. Qed.

(** C39: the shipped font: every glyph's data follows the previous one's without a gap and the last
    ends with the bitmap. *)
Definition raw (g : glyph) : charBitmap := mkCB (goff g) 0 (gw g) (gh g) (gox g) (goy g) (gshift g).
Theorem C39_layout :
  font_typed FreeSans15pt7b /\ zlen (glyphs FreeSans15pt7b) = zlen (font_codes (first FreeSans15pt7b) (last FreeSans15pt7b)) /\
  forall k g, nth_error (glyphs FreeSans15pt7b) k = Some g ->
    (k = O -> goff g = 0) /\
    goff g + data_bytes (raw g) =
      match nth_error (glyphs FreeSans15pt7b) (S k) with Some g2 => goff g2 | None => zlen (bitmap FreeSans15pt7b) end.
Proof.
  split; [exact shipped_typed|]. split; [vm_compute; reflexivity|].
  assert (G : forall l a e,
    (fix chk l a := match l with [] => a =? e | g :: l => (goff g =? a) && chk l (goff g + data_bytes (raw g)) end) l a = true ->
    forall k g, nth_error l k = Some g -> (k = O -> goff g = a) /\
      goff g + data_bytes (raw g) = match nth_error l (S k) with Some g2 => goff g2 | None => e end).
  { induction l as [|g l IH]; intros a e H k g' E; [destruct k; discriminate|].
    apply andb_prop in H. destruct H as [H1 H2]. destruct k as [|k].
    - cbn [nth_error] in E. injection E as <-. split; [intros _; lia|]. cbn [nth_error]. destruct l as [|g2 l]; [lia|].
      cbn [nth_error]. apply andb_prop in H2. destruct H2 as [H2 _]. lia.
    - split; [discriminate|]. cbn [nth_error] in E. destruct (IH _ _ H2 k g' E) as [_ H3]. exact H3. }
  apply (G (glyphs FreeSans15pt7b) 0 (zlen (bitmap FreeSans15pt7b))). vm_compute. reflexivity.
Qed.
Print Assumptions C39_layout.

(** C39: every code but '~' has a glyph with all its data; '~' is undefined behaviour. *)
Theorem C39_codes : forall sg c,
  0 <= c < 256 ->
  (c <> 126 -> exists g, completes (fun fuel => getBitmap fuel sg FreeSans15pt7b (as_char sg c)) g /\ data_inside FreeSans15pt7b g) /\
  (c = 126 -> forall fuel, (1 <= fuel)%nat -> getBitmap fuel sg FreeSans15pt7b (as_char sg c) = UB).
Proof.
  intros sg c Hc. pose proof shipped_typed as HT. pose proof (lookup_entry sg FreeSans15pt7b c HT Hc) as [L1 [L2 _]].
  assert (HG : zlen (glyphs FreeSans15pt7b) = 95) by (vm_compute; reflexivity).
  assert (HF : first FreeSans15pt7b = 32 /\ last FreeSans15pt7b = 126) by (split; reflexivity).
  assert (H0 : has_entry sg FreeSans15pt7b (first FreeSans15pt7b)).
  { apply C36_first; [exact HT|]. split; [lia|]. split; [lia|]. intros E. rewrite E in HG. discriminate. }
  assert (Hin : forall k, 0 <= k < 94 -> exists g, bitmapOf FreeSans15pt7b k = Ok g /\ data_inside FreeSans15pt7b g).
  { assert (A : forallb (fun k => match bitmapOf FreeSans15pt7b k with Ok g => (0 <=? cstart g) && (cstart g + data_bytes g <=? zlen (bitmap FreeSans15pt7b)) | _ => false end) (count_up 94 0) = true) by (vm_compute; reflexivity).
    intros k Hk. rewrite forallb_forall in A. specialize (A k). rewrite in_count_up in A. specialize (A ltac:(lia)).
    destruct (bitmapOf FreeSans15pt7b k) as [g| |]; [|discriminate|discriminate]. exists g. split; [reflexivity|]. unfold data_inside. lia. }
  destruct HF as [HF1 HF2]. split.
  - intros Hne. destruct (has_entry_dec sg FreeSans15pt7b c) as [H|H].
    + destruct (Hin (slot 32 c)) as [g [E D]].
      { destruct H as [_ [H _]]. unfold slot. replace (c <? 127) with true by lia. lia. }
      exists g. split; [|exact D]. exists 1%nat. intros fuel Hfu. rewrite (L1 H fuel Hfu), HF1. exact E.
    + destruct (Hin 0 ltac:(lia)) as [g [E D]]. exists g. split; [|exact D]. exists 2%nat. intros fuel Hfu.
      rewrite (L2 H H0 fuel Hfu). exact E.
  - intros -> fuel Hfu. apply C37_last_entry; [exact HT|lia| |rewrite HG, HF1; reflexivity|exact Hfu].
    unfold has_entry, own_value. rewrite HF1, HF2, HG. split; [right; lia|]. split; [lia|]. cbn; lia.
Qed.
Print Assumptions C39_codes.

(** C39: so every text without '~' is painted without undefined behaviour, wherever it is put and
    whatever the canvas, as long as it ends before x = 1000000000. *)
Theorem C39_text : forall sg c pos text,
  in_reach c pos (255 * zlen text) -> (forall b, In b text -> 0 <= b < 256 /\ b <> 126) ->
  exists gs, Forall2 (fun b g => completes (fun fuel => getBitmap fuel sg FreeSans15pt7b (as_char sg b)) g) text gs /\
    paints c (fun fuel => drawStringAt fuel sg c FreeSans15pt7b pos text) (text_pixels (bitmap FreeSans15pt7b) gs pos).
Proof.
  intros sg c pos text Hx Ht.
  assert (H : exists gs, Forall2 (fun b g => completes (fun fuel => getBitmap fuel sg FreeSans15pt7b (as_char sg b)) g) text gs /\
              Forall (data_inside FreeSans15pt7b) gs /\ advance gs <= 255 * zlen text).
  { clear Hx. induction text as [|b text IH]; [exists []; split; [constructor|]; split; [constructor|cbn; lia]|].
    destruct IH as [gs [A [B C]]]; [intros b' Hb'; apply Ht; right; exact Hb'|].
    destruct (Ht b (or_introl eq_refl)) as [Hb1 Hb2]. destruct (C39_codes sg b Hb1) as [D _]. destruct (D Hb2) as [g [E F]].
    exists (g :: gs). split; [constructor; assumption|]. split; [constructor; assumption|].
    cbn [advance]. rewrite zlen_cons. destruct E as [n E]. pose proof (getBitmap_typed _ _ _ _ _ shipped_typed (E n (Nat.le_refl n))). lia. }
  destruct H as [gs [A [B C]]]. exists gs. split; [exact A|].
  apply C84_plain; [exact shipped_typed|unfold in_reach in *; lia|exact A|exact B].
Qed.
Print Assumptions C39_text.
Example C39_case :
  (forall b, In b [72; 0xE9; 105] -> 0 <= b < 256 /\ b <> 126) /\
  show (drawStringAt 5 true board FreeSans15pt7b (0, 20) [105]) =
  Ok [0x38; 0; 0x38; 0; 0x38; 0; 0; 0; 0; 0; 0; 0; 0x38; 0; 0x38; 0].
Proof.
  split; [|vm_compute; reflexivity]. intros b [<-|[<-|[<-|[]]]]; lia.
Qed.
