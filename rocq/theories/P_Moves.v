(** C82: shapes and texts move with their position. *)
From Verif Require Import Base S_Graphics M_Geometry M_FrameBuffer M_Canvas S_Paint S_TextRoom S_Font S_Moves M_Font L_Geometry L_FrameBuffer L_Canvas L_Paint L_Moves P_Canvas P_Font.

(** C82: for each rotation there is one set of pixels that a shape paints wherever it is and however
    large the canvas *)
Theorem C82_shapes : forall turn a b r rad filled, near_pt (sz r) -> near rad ->
  (exists S, forall c d, rot c = turn -> near_canvas c -> near_pt (shift a d) ->
     paints c (fun _ => drawPixel c (shift a d)) (moved d S)) /\
  (exists S, forall c d, rot c = turn -> near_canvas c -> near_pt (shift a d) -> near_pt (shift b d) ->
     paints c (fun fuel => drawLine fuel c (shift a d) (shift b d)) (moved d S)) /\
  (exists S, forall c d, rot c = turn -> near_canvas c -> near_pt (shift (tl r) d) ->
     paints c (fun _ => drawRectangle c (mkRect (shift (tl r) d) (sz r))) (moved d S)) /\
  (exists S, forall c d, rot c = turn -> near_canvas c -> near_pt (shift (tl r) d) ->
     paints c (fun fuel => drawFilledRectangle fuel c (mkRect (shift (tl r) d) (sz r))) (moved d S)) /\
  (exists S, forall c d, rot c = turn -> near_canvas c -> near_pt (shift a d) ->
     paints c (fun fuel => drawCircle fuel c (shift a d) rad filled) (moved d S)).
Proof.
  intros turn a b r rad filled Hs Hr.
  split; [|split; [|split; [|split]]].
  - exists (fun p => p = a). intros c d _ Hc Ha. eapply paints_ext; [apply (C26_pixel c _ Hc Ha)|].
    intros [x y]. unfold moved, shift. destruct a as [x0 y0]. cbn [fst snd]. split; intros E; inversion E; f_equal; lia.
  - exists (fun p => let z := mkCanvas 0 0 turn in line_pixel (phys z a) (phys z b) (phys z p)). intros c d <- Hc Ha Hb. eapply paints_ext; [apply (C27_pixels c _ _ Hc Ha Hb)|].
    intros p. cbv zeta. destruct (phys_shift c p d) as [v Hv]. unfold moved. rewrite (proj1 (Hv a)), (proj1 (Hv b)), (proj2 (Hv a)). apply line_pixel_shift.
  - exists (frame (tl r) (sz r)). intros c d _ Hc Ht. eapply paints_ext; [apply (C29_any_size c (mkRect (shift (tl r) d) (sz r)) Hc Ht Hs)|].
    intros p. unfold moved, frame, shift. cbn [tl sz fst snd]. lia.
  - exists (in_box (tl r) (sz r)). intros c d _ Hc Ht. eapply paints_ext; [apply (proj1 (C30_filled c (mkRect (shift (tl r) d) (sz r)) Hc Ht Hs))|].
    intros p. unfold moved, in_box, shift. cbn [tl sz fst snd]. lia.
  - destruct (Z_le_dec rad 0) as [H0|H0].
    + exists (fun p => let z := mkCanvas 0 0 turn in snd (phys z p) = snd (phys z a) /\ Z.abs (fst (phys z p) - fst (phys z a)) = - rad).
      intros c d <- Hc Ha. eapply paints_ext; [apply (C31_flat c _ rad filled Hc Ha ltac:(unfold near in Hr; lia))|].
      intros p. cbv zeta. destruct (phys_shift c p d) as [v Hv]. unfold moved. rewrite (proj1 (Hv a)), (proj2 (Hv a)). unfold shift. cbn [fst snd]. lia.
    + destruct filled.
      * exists (fun p => disc rad (fst p - fst a, snd p - snd a)). intros c d _ Hc Ha. eapply paints_ext; [apply (C32_filled c _ rad Hc Ha ltac:(unfold near in Hr; lia))|].
        intros p. unfold moved, shift. cbn [fst snd]. replace (fst p - (fst a + fst d), snd p - (snd a + snd d)) with (fst p - fst d - fst a, snd p - snd d - snd a) by (f_equal; ring). tauto.
      * exists (fun p => ring rad (fst p - fst a, snd p - snd a)). intros c d _ Hc Ha. eapply paints_ext; [apply (C31_circle c _ rad Hc Ha ltac:(unfold near in Hr; lia))|].
        intros p. unfold moved, shift. cbn [fst snd]. replace (fst p - (fst a + fst d), snd p - (snd a + snd d)) with (fst p - fst d - fst a, snd p - snd d - snd a) by (f_equal; ring). tauto.
Qed.
Print Assumptions C82_shapes.
(** ... and so with texts, whose set is the same for all rotations *)
Theorem C82_texts : forall sg f pos text gs,
  font_typed f -> Forall2 (fun b g => completes (fun fuel => getBitmap fuel sg f (as_char sg b)) g) text gs -> Forall (data_inside f) gs ->
  exists S, forall c d, in_reach c (shift pos d) (advance gs) ->
    paints c (fun fuel => drawStringAt fuel sg c f (shift pos d) text) (moved d S).
Proof.
  intros sg f pos text gs HF HG HD. exists (text_pixels (bitmap f) gs pos). intros c d Hc.
  eapply paints_ext; [apply (C35_text sg c f _ text gs Hc HF HG HD)|].
  intros p. unfold moved. apply text_pixels_shift.
Qed.
Print Assumptions C82_texts.
(** a line with a half-way point, moved by (2,1) on a turned canvas of 8x8 pixels *)
Example C82_case :
  near_pt (shift (0, 0) (2, 1)) /\ near_pt (shift (2, 1) (2, 1)) /\
  (do l <- drawLine 40 (mkCanvas 8 8 R180) (0, 0) (2, 1); do f <- draw (mkCanvas 8 8 R180) sqf l; Ok (getImage f)) = Ok [0; 0; 0; 0; 0; 0; 6; 1] /\
  (do l <- drawLine 40 (mkCanvas 8 8 R180) (2, 1) (4, 2); do f <- draw (mkCanvas 8 8 R180) sqf l; Ok (getImage f)) = Ok [0; 0; 0; 0; 0; 24; 4; 0].
Proof. split; [repeat split; vm_compute; congruence|]. split; [repeat split; vm_compute; congruence|]. split; vm_compute; reflexivity. Qed.
