(** Where glyphs and texts can be drawn, and how wide a text can be measured (C84). *)
From Verif Require Import Base S_Graphics S_Ranges S_Font S_Paint S_TextRoom M_Geometry M_FrameBuffer M_Canvas M_Font L_Geometry L_FrameBuffer L_Canvas L_Circle L_Paint L_Font L_Ranges L_TextRoom.

(** C84: drawing a character is defined exactly if the font has a bitmap for it whose data is inside the
    font and whose set pixels have room; then these pixels are painted and the advance is returned. *)
Theorem C84_glyph : forall sg c f pos s, sized c -> font_typed f ->
  let room g := completes (fun fuel => getBitmap fuel sg f s) g /\ data_inside f g /\ glyph_room c (bitmap f) g pos in
  (returns (fun fuel => drawCharAt fuel sg c f pos s) <-> exists g, room g) /\
  (forall g, room g ->
     paints c (fun fuel => do r <- drawCharAt fuel sg c f pos s; Ok (fst r))
       (glyph_pixels (bitmap f) g (fst pos + cox g, snd pos + coy g)) /\
     completes (fun fuel => do r <- drawCharAt fuel sg c f pos s; Ok (snd r)) (cwidth g)).
Proof.
  intros sg c f pos s Hc Hf. cbv zeta. split; [split|].
  - intros (fuel & [l adv] & E). apply drawCharAt_inv in E; try assumption. destruct E as (g & Eg & _ & D & R).
    exists g. split; [|split; assumption]. exists fuel. intros m Hm. apply (getBitmap_mono sg f fuel m _ _ Hm Eg).
  - intros (g & [n Eg] & D & R). destruct (drawCharAt_room c Hc n sg f pos s g Hf (Eg n (Nat.le_refl n)) D R) as (l & E & _).
    exists n. eexists. apply E. apply Eg. lia.
  - intros g ([n Eg] & D & R). destruct (drawCharAt_room c Hc n sg f pos s g Hf (Eg n (Nat.le_refl n)) D R) as (l & E & F). split.
    + apply (paints_of c _ l); [|intros p _; apply F]. exists n. intros fuel Hfu. rewrite E by (apply Eg; exact Hfu). reflexivity.
    + exists n. intros fuel Hfu. rewrite E by (apply Eg; exact Hfu). reflexivity.
Qed.
Print Assumptions C84_glyph.

(** C84: a text *)
Theorem C84_text : forall sg c f pos text, sized c -> font_typed f -> is_point pos ->
  (returns (fun fuel => drawStringAt fuel sg c f pos text) <-> exists gs, shown_as sg f text gs /\ text_room c f gs pos) /\
  (forall gs, shown_as sg f text gs -> text_room c f gs pos ->
     paints c (fun fuel => drawStringAt fuel sg c f pos text) (text_pixels (bitmap f) gs pos)).
Proof.
  intros sg c f pos text Hc Hf Hp. split; [split|].
  - intros (fuel & l & E). apply drawStringAt_inv in E; try assumption; [|apply Hp]. destruct E as (gs & HG & R).
    exists gs. split; [apply (glyphs_of_completes sg f fuel); exact HG|exact R].
  - intros (gs & HG & R). apply (completes_all (fun b fuel => getBitmap fuel sg f (as_char sg b))) in HG. destruct HG as [N HN].
    destruct (drawStringAt_room c Hc sg f text gs pos N Hf (proj1 Hp) HN R) as (l & E & _). exists N, l. apply E. lia.
  - intros gs HG R. apply (completes_all (fun b fuel => getBitmap fuel sg f (as_char sg b))) in HG. destruct HG as [N HN].
    destruct (drawStringAt_room c Hc sg f text gs pos N Hf (proj1 Hp) HN R) as (l & E & F).
    apply (paints_of c _ l); [exists N; exact E|intros p _; apply F].
Qed.
Print Assumptions C84_text.

(** C84: nothing can go wrong with complete glyphs within a thousand million pixels. *)
Theorem C84_plain : forall sg c f pos text gs,
  font_typed f -> in_reach c pos (advance gs) ->
  shown_as sg f text gs -> Forall (data_inside f) gs ->
  paints c (fun fuel => drawStringAt fuel sg c f pos text) (text_pixels (bitmap f) gs pos).
Proof.
  intros sg c f pos text gs Hf (Hw & Hh & [Hx1 Hx2] & Hy) HG HD.
  pose proof (completes_all (fun b fuel => getBitmap fuel sg f (as_char sg b)) _ _ HG) as [N HN]. pose proof (HN N (Nat.le_refl N)) as H0.
  pose proof (advance_nonneg _ _ _ _ _ Hf H0) as A.
  assert (Hc : sized c) by (unfold sized, INT_MAX; lia).
  apply C84_text; try assumption; try lia; [unfold is_point, is_int, INT_MIN, INT_MAX; lia|].
  split; [unfold is_int, INT_MIN, INT_MAX; lia|]. intros n g Eg. rewrite Forall_forall in HD. split; [apply HD; apply nth_error_In in Eg; exact Eg|].
  pose proof (advance_firstn _ _ _ _ _ n Hf H0) as B.
  assert (T : exists b, getBitmap N sg f (as_char sg b) = Ok g).
  { clear - H0 Eg. revert n Eg. induction H0 as [|b g' text gs E _ IH]; intros [|n] Eg; cbn [nth_error] in Eg; try discriminate; [injection Eg as <-; eauto|eauto]. }
  destruct T as [b T]. apply getBitmap_typed in T; [|exact Hf].
  apply reach_glyph; [unfold in_reach; cbn [fst snd]; lia|apply T..].
Qed.
Print Assumptions C84_plain.

(** C84: measuring a text is defined exactly if the font has bitmaps for it and the sum of the widths is
    an [int] (C38 says what is measured). *)
Theorem C84_bounds : forall sg f text, font_typed f ->
  (returns (fun fuel => getTextBounds fuel sg f text) <->
   exists gs, shown_as sg f text gs /\
     forall g0 mid gl, gs = g0 :: mid ++ [gl] -> ew g0 + advance mid + ew gl <= INT_MAX).
Proof.
  intros sg f text Hf. destruct text as [|b text].
  - split; [|intros _; exists O; eexists; reflexivity]. intros _. exists []. split; [constructor|]. intros g0 mid gl H; discriminate.
  - split.
    + intros (fuel & r & E). apply getTextBounds_inv in E; [|exact Hf]. destruct E as (g & gs & HG & W). exists (g :: gs).
      split; [apply (glyphs_of_completes sg f fuel); exact HG|]. intros g0 mid gl H. injection H as <- ->. rewrite rest_width_snoc in W. lia.
    + intros (gs & HG & W). apply (completes_all (fun b fuel => getBitmap fuel sg f (as_char sg b))) in HG. destruct HG as [N HN].
      pose proof (HN N (Nat.le_refl N)) as H0. destruct gs as [|g gs]; [inversion H0|]. exists N. eexists.
      apply getTextBounds_ok; [exact Hf|exact H0|]. inversion H0 as [|? ? ? ? Eg _]; subst.
      pose proof (getBitmap_typed _ _ _ _ _ Hf Eg) as T.
      destruct gs as [|gl mid _] using rev_ind; [cbn [rest_width]; unfold INT_MAX; lia|]. rewrite rest_width_snoc. specialize (W g mid gl eq_refl). lia.
Qed.
Print Assumptions C84_bounds.

Definition wide_canvas : canvas := mkCanvas 2147483647 8 R0.
Definition small_font : font :=
  mkFont [0xFC; 0x7E; 0x90; 0] [mkGlyph 0 5 3 6 0 (-3); mkGlyph 2 2 2 3 1 (-1); mkGlyph 3 1 1 4 0 0] 65 67.
(** the character that ends in the last column can be drawn alone, but not in a text, because of the
    position after it; turned by a quarter, a text must keep away from the other end *)
Example C84_case :
  sized wide_canvas /\ font_typed small_font /\
  getBitmap 5 true small_font 65 = Ok (mkCB 0 4 5 3 0 (-3) 6) /\
  returns (fun fuel => drawCharAt fuel true wide_canvas small_font (2147483643, 4) 65) /\
  drawCharAt 5 true wide_canvas small_font (2147483644, 4) 65 = UB /\
  drawStringAt 5 true wide_canvas small_font (2147483643, 4) [65] = UB /\
  text_room wide_canvas small_font [mkCB 0 4 5 3 0 (-3) 6] (2147483641, 4) /\
  returns (fun fuel => drawStringAt fuel true wide_canvas small_font (2147483641, 4) [65]) /\
  drawStringAt 5 true (mkCanvas 8 8 R180) small_font (-2147483641, 4) [65] = UB /\
  returns (fun fuel => drawStringAt fuel true (mkCanvas 8 8 R180) small_font (-2147483640, 4) [65]) /\
  is_point (phys (mkCanvas 0 0 R90) (0, -2147483648)) /\ drawCharAt 5 true (mkCanvas 0 0 R90) small_font (0, -2147483645) 65 = UB /\
  in_reach (mkCanvas 400 300 R270) (-1000000000, 1000000000) 12 /\ returns (fun fuel => drawStringAt fuel true (mkCanvas 400 300 R270) small_font (-1000000000, 1000000000) [65; 65]).
Proof.
  split; [unfold sized, wide_canvas, INT_MAX; cbn [cw ch]; lia|].
  split. { split; [cbn; lia|]. split; [cbn; lia|]. split; [repeat constructor; unfold is_byte; lia|]. repeat constructor; cbn; lia. }
  split; [reflexivity|]. split; [exists 5%nat; eexists; vm_compute; reflexivity|]. split; [vm_compute; reflexivity|]. split; [vm_compute; reflexivity|].
  split. { split; [unfold is_int, INT_MIN, INT_MAX; cbn [fst advance cwidth]; lia|]. intros [|[|n]] g E; cbn [nth_error] in E; try discriminate. injection E as <-.
    split; [unfold data_inside, data_bytes; cbn; lia|]. split; [unfold is_point, is_int, INT_MIN, INT_MAX; cbn; lia|].
    intros q (i & j & Hi & Hj & -> & _). rewrite phys_val. unfold mirrored. cbn [ew eh cox coy fst snd firstn advance rot wide_canvas] in *. unfold is_point, is_int, INT_MIN, INT_MAX. cbn [fst snd]. lia. }
  split; [exists 5%nat; eexists; vm_compute; reflexivity|]. split; [vm_compute; reflexivity|]. split; [exists 5%nat; eexists; vm_compute; reflexivity|].
  split; [vm_compute; repeat split; discriminate|]. split; [vm_compute; reflexivity|]. split; [unfold in_reach; cbn [cw ch fst snd]; lia|]. exists 5%nat; eexists; vm_compute; reflexivity.
Qed.
