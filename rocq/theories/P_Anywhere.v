(** C33 and C82 wherever a call is defined. *)
From Verif Require Import Base S_Graphics M_Geometry M_FrameBuffer M_Canvas S_Paint S_Font S_Ranges S_TextRoom S_Moves M_Font L_Geometry L_FrameBuffer L_Canvas L_LineTurn L_LineTies L_Circle L_Paint L_Font L_Ranges L_TextRoom L_Moves P_Ranges P_TextRoom.

(** C33: whatever the canvas and the coordinates: a call that is defined paints, in logical coordinates,
    one and the same set. *)
Theorem C33_wherever : forall a r rad filled sg f text,
  is_point a -> is_rect r -> 0 <= rad <= INT_MAX -> font_typed f ->
  (exists S, forall c, sized c -> returns (fun _ => drawPixel c a) -> paints c (fun _ => drawPixel c a) S) /\
  (exists S, forall c, sized c -> returns (fun _ => drawRectangle c r) -> paints c (fun _ => drawRectangle c r) S) /\
  (exists S, forall c, sized c -> returns (fun fuel => drawFilledRectangle fuel c r) -> paints c (fun fuel => drawFilledRectangle fuel c r) S) /\
  (exists S, forall c, sized c -> returns (fun fuel => drawCircle fuel c a rad filled) -> paints c (fun fuel => drawCircle fuel c a rad filled) S) /\
  (exists S, forall c, sized c -> returns (fun fuel => drawStringAt fuel sg c f a text) ->
     paints c (fun fuel => drawStringAt fuel sg c f a text) S).
Proof.
  intros a r rad filled sg f text Ha Hr Hrad Hf.
  split. { eexists. intros c Hc R. destruct (C83_pixel c a Hc Ha) as [X Y]. apply Y. apply X. exact R. }
  split. { eexists. intros c Hc R. destruct (C83_outline c r Hc Hr) as [X Y]. apply Y. apply X. exact R. }
  split. { eexists. intros c Hc R. destruct (C83_filled c r Hc Hr) as [X Y]. apply Y. apply X. exact R. }
  split.
  { destruct (Z.eq_dec rad 0) as [->|Hr0].
    - exists (fun p => p = a). intros c Hc R. destruct (C83_circle c a 0 filled Hc Ha ltac:(unfold is_int, INT_MIN, INT_MAX in *; lia)) as (X & _ & Y).
      eapply paints_ext; [apply Y; [apply X; exact R|lia]|]. intros p. cbv beta. split.
      + intros H. apply (phys_inj c). destruct (phys c p), (phys c a). cbn [fst snd] in H. f_equal; lia.
      + intros ->. lia.
    - eexists. intros c Hc R. destruct (C83_circle c a rad filled Hc Ha ltac:(unfold is_int, INT_MIN in *; lia)) as (X & Y & _). apply Y; [apply X; exact R|lia]. }
  exists (fun p => exists gs, shown_as sg f text gs /\ text_pixels (bitmap f) gs a p).
  intros c Hc R. destruct (C84_text sg c f a text Hc Hf Ha) as [X Y]. destruct (proj1 X R) as (gs & HG & HR).
  eapply paints_ext; [apply (Y gs HG HR)|]. intros p. split; [intros H; exists gs; auto|].
  intros (gs' & HG' & H). rewrite <- (shown_unique sg f text gs gs' HG HG'). exact H.
Qed.
Print Assumptions C33_wherever.

Theorem C33_line_wherever : forall a b, is_point a -> is_point b ->
  let L := Z.max (Z.abs (fst b - fst a)) (Z.abs (snd b - snd a)) in
  (forall i k, 0 < i < L -> 2 * (i * (fst b - fst a)) <> L * (2 * k + 1) /\ 2 * (i * (snd b - snd a)) <> L * (2 * k + 1)) ->
  exists S, forall c, sized c -> returns (fun fuel => drawLine fuel c a b) -> paints c (fun fuel => drawLine fuel c a b) S.
Proof.
  intros a b Ha Hb L HT.
  exists (fun p => exists i, 0 <= i <= L /\ 2 * Z.abs (L * (fst p - fst a) - i * (fst b - fst a)) <= L /\ 2 * Z.abs (L * (snd p - snd a) - i * (snd b - snd a)) <= L /\ (L = 0 -> p = a)).
  intros c Hc R. destruct (C83_line c a b Hc Ha Hb) as [X Y]. destruct (Y (proj1 X R)) as (_ & l & D & PA).
  eapply paints_ext; [exact PA|]. intros p. apply (digital_line_parts a b l D HT).
Qed.
Print Assumptions C33_line_wherever.

(** C33: for lines on a picture of [w] x [h] pixels the condition is exact: a line with a point half way
    between two pixels paints another set on a turned canvas. *)
Theorem C33_line_exact : forall w h a b, 0 < w -> 0 < h -> w mod 8 = 0 -> w * h <= INT_MAX -> in_grid (w, h) a -> in_grid (w, h) b ->
  let L := Z.max (Z.abs (fst b - fst a)) (Z.abs (snd b - snd a)) in
  ((exists S, forall c, sized c -> returns (fun fuel => drawLine fuel c a b) -> paints c (fun fuel => drawLine fuel c a b) S) <->
   forall i k, 0 < i < L -> 2 * (i * (fst b - fst a)) <> L * (2 * k + 1) /\ 2 * (i * (snd b - snd a)) <> L * (2 * k + 1)).
Proof.
  intros w h a b Hw Hh H8 HA Ha Hb L.
  assert (Sz : forall r, sized (mkCanvas w h r)) by (intros r; unfold sized; cbn [cw ch]; nia). split.
  - intros [S HS].
    assert (P : forall r, in_grid (getSize (mkCanvas w h r)) a -> in_grid (getSize (mkCanvas w h r)) b ->
      paints (mkCanvas w h r) (fun fuel => drawLine fuel (mkCanvas w h r) a b) S /\
      paints (mkCanvas w h r) (fun fuel => drawLine fuel (mkCanvas w h r) a b)
        (fun p => line_pixel (phys (mkCanvas w h r) a) (phys (mkCanvas w h r) b) (phys (mkCanvas w h r) p))).
    { intros r Ga Gb. pose proof (proj1 (C83_on_canvas _ (Sz r)) a b Ga Gb) as Q. split; [|exact Q]. apply HS; [apply Sz|].
      destruct Q as (l & [n Hn] & _). exists n, l. apply Hn. lia. }
    destruct (P R0 Ha Hb) as [P0 Q0]. destruct (P R180 Ha Hb) as [P1 Q1].
    intros i k Hi. split; intros HT; apply (line_turned w h a b _ _ S i k Hw Hh H8 HA Ha Hb P0 P1 Q0 Q1 Hi); [left|right]; exact HT.
  - intros HT. assert (I : forall q, in_grid (w, h) q -> is_point q).
    { intros q Hq. unfold in_grid, in_box in Hq. cbn [fst snd] in Hq. unfold is_point, is_int, INT_MIN, INT_MAX in *. nia. }
    apply C33_line_wherever; [apply I; exact Ha|apply I; exact Hb|exact HT].
Qed.
Print Assumptions C33_line_exact.
Example C33_line_exact_case : in_grid (8, 8) (0, 0) /\ in_grid (8, 8) (6, 1) /\ 2 * (3 * (1 - 0)) = 6 * (2 * 0 + 1) /\
  (do l <- drawLine 40 (mkCanvas 8 8 R0) (0, 0) (6, 1); do f <- draw (mkCanvas 8 8 R0) (mkFb 8 8 1 (repeat 0 8) 1) l; Ok (getImage f)) = Ok [240; 14; 0; 0; 0; 0; 0; 0] /\
  (do l <- drawLine 40 (mkCanvas 8 8 R180) (0, 0) (6, 1); do f <- draw (mkCanvas 8 8 R180) (mkFb 8 8 1 (repeat 0 8) 1) l; Ok (getImage f)) = Ok [0; 0; 0; 0; 0; 0; 120; 7].
Proof. repeat split; vm_compute; congruence. Qed.

(** C82: and if it is moved, so is the set. *)
Theorem C82_wherever : forall turn a b r rad filled sg f text,
  is_point (sz r) -> is_int rad -> font_typed f ->
  (exists S, forall c d, rot c = turn -> sized c -> is_point (shift a d) -> returns (fun _ => drawPixel c (shift a d)) ->
     paints c (fun _ => drawPixel c (shift a d)) (moved d S)) /\
  (exists S, forall c d, rot c = turn -> sized c -> is_point (shift a d) -> is_point (shift b d) ->
     returns (fun fuel => drawLine fuel c (shift a d) (shift b d)) ->
     paints c (fun fuel => drawLine fuel c (shift a d) (shift b d)) (moved d S)) /\
  (exists S, forall c d, rot c = turn -> sized c -> is_point (shift (tl r) d) ->
     returns (fun _ => drawRectangle c (mkRect (shift (tl r) d) (sz r))) ->
     paints c (fun _ => drawRectangle c (mkRect (shift (tl r) d) (sz r))) (moved d S)) /\
  (exists S, forall c d, rot c = turn -> sized c -> is_point (shift (tl r) d) ->
     returns (fun fuel => drawFilledRectangle fuel c (mkRect (shift (tl r) d) (sz r))) ->
     paints c (fun fuel => drawFilledRectangle fuel c (mkRect (shift (tl r) d) (sz r))) (moved d S)) /\
  (exists S, forall c d, rot c = turn -> sized c -> is_point (shift a d) ->
     returns (fun fuel => drawCircle fuel c (shift a d) rad filled) ->
     paints c (fun fuel => drawCircle fuel c (shift a d) rad filled) (moved d S)) /\
  (exists S, forall c d, rot c = turn -> sized c -> is_point (shift a d) ->
     returns (fun fuel => drawStringAt fuel sg c f (shift a d) text) ->
     paints c (fun fuel => drawStringAt fuel sg c f (shift a d) text) (moved d S)).
Proof.
  intros turn a b r rad filled sg f text Hs Hr Hf.
  split; [|split; [|split; [|split; [|split]]]].
  - exists (fun p => p = a). intros c d _ Hc Ha R. destruct (C83_pixel c _ Hc Ha) as [X Y]. eapply paints_ext; [apply Y; apply X; exact R|].
    intros [x y]. unfold moved, shift. destruct a as [x0 y0]. cbn [fst snd]. split; intros E; inversion E; f_equal; lia.
  - exists (fun p => let z := mkCanvas 0 0 turn in line_pixel (phys z a) (phys z b) (phys z p)). intros c d <- Hc Ha Hb R.
    destruct (C83_line c _ _ Hc Ha Hb) as [X Y]. eapply paints_ext; [apply Y; apply X; exact R|].
    intros p. cbv zeta. destruct (phys_shift c p d) as [v Hv]. unfold moved. rewrite (proj1 (Hv a)), (proj1 (Hv b)), (proj2 (Hv a)). apply line_pixel_shift.
  - exists (frame (tl r) (sz r)). intros c d _ Hc Ht R. destruct (C83_outline c (mkRect (shift (tl r) d) (sz r)) Hc (conj Ht Hs)) as [X Y].
    eapply paints_ext; [apply Y; apply X; exact R|]. intros p. unfold moved, frame, shift. cbn [tl sz fst snd]. lia.
  - exists (in_box (tl r) (sz r)). intros c d _ Hc Ht R. destruct (C83_filled c (mkRect (shift (tl r) d) (sz r)) Hc (conj Ht Hs)) as [X Y].
    eapply paints_ext; [apply Y; apply X; exact R|]. intros p. unfold moved, in_box, shift. cbn [tl sz fst snd]. lia.
  - destruct (Z_le_dec rad 0) as [H0|H0].
    + exists (fun p => let z := mkCanvas 0 0 turn in snd (phys z p) = snd (phys z a) /\ Z.abs (fst (phys z p) - fst (phys z a)) = - rad).
      intros c d <- Hc Ha R. destruct (C83_circle c _ rad filled Hc Ha Hr) as (X & _ & Y). eapply paints_ext; [apply Y; [apply X; exact R|exact H0]|].
      intros p. cbv zeta. destruct (phys_shift c p d) as [v Hv]. unfold moved. rewrite (proj1 (Hv a)), (proj2 (Hv a)). unfold shift. cbn [fst snd]. lia.
    + exists (fun p => (if filled then disc else ring) rad (fst p - fst a, snd p - snd a)). intros c d _ Hc Ha R.
      destruct (C83_circle c _ rad filled Hc Ha Hr) as (X & Y & _). eapply paints_ext; [apply Y; [apply X; exact R|lia]|].
      intros p. unfold moved, shift. cbn [fst snd]. replace (fst p - (fst a + fst d), snd p - (snd a + snd d)) with (fst p - fst d - fst a, snd p - snd d - snd a) by (f_equal; ring). tauto.
  - exists (fun p => exists gs, shown_as sg f text gs /\ text_pixels (bitmap f) gs a p). intros c d _ Hc Ha R.
    destruct (C84_text sg c f _ text Hc Hf Ha) as [X Y]. destruct (proj1 X R) as (gs & HG & HR).
    eapply paints_ext; [apply (Y gs HG HR)|]. intros p. rewrite text_pixels_shift. unfold moved. split; [intros H; exists gs; auto|].
    intros (gs' & HG' & H). rewrite <- (shown_unique sg f text gs gs' HG HG'). exact H.
Qed.
Print Assumptions C82_wherever.
(** a rectangle and a line at the end of the range of [int], and at the origin *)
Example C82_wherever_case :
  let c := mkCanvas 2147483647 8 R0 in
  sized c /\ returns (fun fuel => drawFilledRectangle fuel c (mkRect (shift (0, 1) (2147483640, 0)) (8, 2))) /\
  returns (fun fuel => drawFilledRectangle fuel c (mkRect (shift (0, 1) (0, 0)) (8, 2))) /\
  returns (fun fuel => drawLine fuel c (shift (0, 0) (2147483643, 1)) (shift (2, 1) (2147483643, 1))) /\
  returns (fun fuel => drawLine fuel c (shift (0, 0) (0, 0)) (shift (2, 1) (0, 0))).
Proof.
  cbv zeta. split; [unfold sized, INT_MAX; cbn [cw ch]; lia|].
  repeat (split; [exists 20%nat; eexists; vm_compute; reflexivity|]). exists 20%nat; eexists; vm_compute; reflexivity.
Qed.
