(** When the drawing calls are defined (C83). *)
From Verif Require Import Base S_Graphics M_Geometry M_FrameBuffer M_Canvas S_Paint S_Ranges L_Geometry L_Canvas L_Circle L_Paint L_Ranges.

(** C83: a pixel whose place in the frame buffer has [int] coordinates *)
Theorem C83_pixel : forall c a, sized c -> is_point a ->
  (returns (fun _ => drawPixel c a) <-> is_point (phys c a)) /\
  (is_point (phys c a) -> paints c (fun _ => drawPixel c a) (fun p => p = a)).
Proof.
  intros c a Hc Ha. split; [split|].
  - intros (_ & l & H). unfold drawPixel in H. apply bind_inv in H. destruct H as (q & E & _). apply (transformPoint_room c a q Hc Ha E).
  - intros P. exists O. unfold drawPixel. rewrite (transformPoint_point c a Hc Ha P). cbn [bind]. eauto.
  - intros P. apply (paints_of c _ [phys c a]).
    + apply completes_const. unfold drawPixel. rewrite (transformPoint_point c a Hc Ha P). reflexivity.
    + intros p _. cbn [In]. split; [intros [H|[]]; apply (phys_inj c); auto|intros ->; auto].
Qed.
Print Assumptions C83_pixel.

(** C83: a line, whatever its ends: defined exactly if there is room, and then it is the line of C27 *)
Theorem C83_line : forall c a b, sized c -> is_point a -> is_point b ->
  let room := is_point (phys c a) /\ is_point (phys c b) /\ line_room (phys c a) (phys c b) in
  (returns (fun fuel => drawLine fuel c a b) <-> room) /\
  (room ->
     paints c (fun fuel => drawLine fuel c a b) (fun p => line_pixel (phys c a) (phys c b) (phys c p)) /\
     exists l, digital_line a b l /\ paints c (fun fuel => drawLine fuel c a b) (fun p => In p l)).
Proof.
  intros c a b Hc Ha Hb. cbv zeta.
  assert (OK : is_point (phys c a) /\ is_point (phys c b) /\ line_room (phys c a) (phys c b) ->
    completes (fun fuel => drawLine fuel c a b) (lineSet (phys c a) (phys c b))).
  { intros (Pa & Pb & R). apply drawLine_room; try assumption; apply transformPoint_point; assumption. }
  split; [split|].
  - intros (fuel & l & H). apply (drawLine_inv fuel c a b l Hc Ha Hb H).
  - intros R. destruct (OK R) as [n N]. exists n, (lineSet (phys c a) (phys c b)). apply N. lia.
  - intros R. split; [apply (paints_of c _ _ _ (OK R)); intros p _; apply lineSet_pixels|].
    exists (map (logical c) (lineSet (phys c a) (phys c b))). split; [apply digital_line_logical; apply lineSet_digital|].
    apply (paints_of c _ _ _ (OK R)). intros p _. rewrite in_map_iff. split.
    + intros H. exists (phys c p). split; [apply logical_phys|exact H].
    + intros [q [<- H]]. rewrite phys_logical. exact H.
Qed.
Print Assumptions C83_line.

(** C83: the outline of a rectangle *)
Theorem C83_outline : forall c r, sized c -> is_rect r ->
  (returns (fun _ => drawRectangle c r) <-> turn_room c r /\ outline_room (turned c r)) /\
  (turn_room c r /\ outline_room (turned c r) -> paints c (fun _ => drawRectangle c r) (frame (tl r) (sz r))).
Proof.
  intros c r Hc Hr. split; [split|].
  - intros (_ & l & H). apply (drawRectangle_inv c r l Hc Hr H).
  - intros [H1 H2]. destruct (drawRectangle_room c r Hc Hr H1 H2) as (l & E & _). exists O, l. exact E.
  - intros [H1 H2]. destruct (drawRectangle_room c r Hc Hr H1 H2) as (l & E & F).
    apply (paints_of c _ l _ (completes_const _ _ E)). intros p _. apply F.
Qed.
Print Assumptions C83_outline.

(** C83: a filled rectangle *)
Theorem C83_filled : forall c r, sized c -> is_rect r ->
  (returns (fun fuel => drawFilledRectangle fuel c r) <-> turn_room c r /\ corner_room (turned c r)) /\
  (turn_room c r /\ corner_room (turned c r) -> paints c (fun fuel => drawFilledRectangle fuel c r) (in_box (tl r) (sz r))).
Proof.
  intros c r Hc Hr. split; [split|].
  - intros (fuel & l & H). apply (drawFilledRectangle_inv c r fuel l Hc Hr H).
  - intros [H1 H2]. destruct (drawFilledRectangle_room c r Hc Hr H1 H2) as (l & [n N] & _). exists n, l. apply N. lia.
  - intros [H1 H2]. destruct (drawFilledRectangle_room c r Hc Hr H1 H2) as (l & E & _ & _ & F).
    apply (paints_of c _ l _ E). intros p Hp. rewrite F. tauto.
Qed.
Print Assumptions C83_filled.

(** C83: circles of any radius *)
Theorem C83_circle : forall c ctr r filled, sized c -> is_point ctr -> is_int r ->
  let room := is_point (phys c ctr) /\ circle_room (phys c ctr) r filled in
  (returns (fun fuel => drawCircle fuel c ctr r filled) <-> room) /\
  (room -> 1 <= r -> paints c (fun fuel => drawCircle fuel c ctr r filled)
     (fun p => (if filled then disc else ring) r (fst p - fst ctr, snd p - snd ctr))) /\
  (room -> r <= 0 -> paints c (fun fuel => drawCircle fuel c ctr r filled)
     (fun p => snd (phys c p) = snd (phys c ctr) /\ Z.abs (fst (phys c p) - fst (phys c ctr)) = - r)).
Proof.
  intros c ctr r filled Hc Hp Hr. cbv zeta.
  assert (B1 : is_point (phys c ctr) /\ circle_room (phys c ctr) r filled -> 1 <= r ->
    exists l, completes (fun fuel => drawCircle fuel c ctr r filled) l /\ forall p, In (phys c p) l <-> (if filled then disc else ring) r (fst p - fst ctr, snd p - snd ctr)).
  { intros [P R] H1. unfold circle_room in R. replace (r <=? 0) with false in R by lia. destruct R as (R1 & R2 & R3 & R4 & RF).
    destruct (drawCircle_room c ctr r filled (transformPoint_point c ctr Hc Hp P) H1 RF) as (l & E & _ & F); [unfold roomy; auto|]. eauto. }
  assert (B2 : is_point (phys c ctr) /\ circle_room (phys c ctr) r filled -> r <= 0 ->
    exists l, completes (fun fuel => drawCircle fuel c ctr r filled) l /\ forall q, In q l <-> snd q = snd (phys c ctr) /\ Z.abs (fst q - fst (phys c ctr)) = - r).
  { intros [P R] H1. unfold circle_room in R. replace (r <=? 0) with true in R by lia. destruct R as (R1 & R2 & R3 & R4).
    apply drawCircle_flat_room; try assumption; [apply transformPoint_point; assumption|lia|apply P]. }
  split; [split|split].
  - intros (fuel & l & H). apply (circle_inv fuel c ctr r filled l); assumption.
  - intros R. destruct (Z_le_dec r 0) as [H|H]; [destruct (B2 R H) as (l & [n N] & _)|destruct (B1 R ltac:(lia)) as (l & [n N] & _)]; exists n, l; apply N; lia.
  - intros R H. destruct (B1 R H) as (l & E & F). apply (paints_of c _ l _ E). intros p _. apply F.
  - intros R H. destruct (B2 R H) as (l & E & F). apply (paints_of c _ l _ E). intros p _. apply F.
Qed.
Print Assumptions C83_circle.
(** C83: the error term fits for all radii up to a third of INT_MAX and for none from 715829428 on, so
    such a circle cannot be drawn anywhere ... *)
Theorem C83_radii : forall r,
  (1 <= r <= 715827882 -> error_fits r) /\
  (715829428 <= r -> ~ error_fits r) /\
  (715829428 <= r -> is_int r -> forall c ctr filled, sized c -> is_point ctr -> ~ returns (fun fuel => drawCircle fuel c ctr r filled)).
Proof.
  intros r. assert (A : 715829428 <= r -> ~ error_fits r) by (intros H F; apply error_fits_bound in F; lia).
  split; [apply error_fits_small|]. split; [exact A|]. intros H Hr c ctr filled Hc Hp R. apply (C83_circle c ctr r filled Hc Hp Hr) in R.
  destruct R as [_ R]. unfold circle_room in R. replace (r <=? 0) with false in R by lia. apply (A H). apply R.
Qed.
Print Assumptions C83_radii.
(** ... and between them whether it fits is not even monotone in the radius. *)
Theorem C83_radii_monotone_refuted : exists r r', 1 <= r /\ r < r' /\ ~ error_fits r /\ error_fits r'.
Proof.
  exists 715827999, 715829399. split; [lia|]. split; [lia|]. split.
  - intros H. specialize (H 279330 715827944 ltac:(lia) ltac:(lia) ltac:(lia)). unfold INT_MAX in H. lia.
  - apply error_fits_check. vm_compute. reflexivity.
Qed.
Print Assumptions C83_radii_monotone_refuted.

(** C83: on a canvas of any size, all lines between its points and all rectangles on it have room. *)
Theorem C83_on_canvas : forall c, sized c ->
  (forall a b, in_grid (getSize c) a -> in_grid (getSize c) b ->
     paints c (fun fuel => drawLine fuel c a b) (fun p => line_pixel (phys c a) (phys c b) (phys c p))) /\
  (forall r, 0 < fst (sz r) -> 0 < snd (sz r) -> (forall q, in_box (tl r) (sz r) q -> in_grid (getSize c) q) ->
     paints c (fun _ => drawRectangle c r) (border (tl r) (sz r)) /\
     paints c (fun fuel => drawFilledRectangle fuel c r) (in_box (tl r) (sz r))).
Proof.
  intros c Hc. split.
  - intros a b Ha Hb. destruct (on_canvas_point c a Hc Ha) as [A1 A2]. destruct (on_canvas_point c b Hc Hb) as [B1 B2].
    apply (C83_line c a b Hc A1 B1). split; [exact A2|]. split; [exact B2|]. apply on_canvas_line; assumption.
  - intros r Hw Hh Hin. destruct (on_canvas_rect c r Hc Hw Hh Hin) as (R & T & O & C). split.
    + apply (paints_ext c _ (frame (tl r) (sz r))); [intros p; apply frame_border; assumption|]. apply (C83_outline c r Hc R). split; assumption.
    + apply (C83_filled c r Hc R). split; assumption.
Qed.
Print Assumptions C83_on_canvas.

Definition far : canvas := mkCanvas 2147483647 8 R0.
(** the same end is reached by a flat line, but a steep one steps past it and a straight one too *)
Example C83_case : sized far /\ is_point (2147483640, 0) /\ is_point (2147483647, 8) /\
  ~ line_room (2147483640, 0) (2147483647, 8) /\ line_room (2147483645, 0) (2147483647, 8) /\
  drawLine 20 far (2147483640, 0) (2147483647, 8) = UB /\
  drawLine 20 far (2147483645, 0) (2147483647, 8) =
    Ok [(2147483645, 0); (2147483645, 1); (2147483645, 2); (2147483646, 3); (2147483646, 4); (2147483646, 5); (2147483646, 6); (2147483647, 7); (2147483647, 8)] /\
  drawLine 20 far (2147483640, 0) (2147483647, 0) = UB /\
  drawRectangle far (mkRect (2147483640, 0) (8, 2)) = UB /\
  returns (fun fuel => drawFilledRectangle fuel far (mkRect (2147483640, 0) (8, 2))).
Proof.
  split; [unfold sized, far, INT_MAX; cbn [cw ch]; lia|]. split; [split; vm_compute; split; congruence|]. split; [split; vm_compute; split; congruence|].
  split. { intros (_ & _ & _ & R). destruct (R _ _ (or_introl eq_refl)) as [_ R2]. cbn [fst snd] in R2. destruct (R2 ltac:(lia) ltac:(lia)) as [_ R3].
    unfold flip in R3. cbn [fst snd] in R3. specialize (R3 ltac:(lia)). vm_compute in R3. destruct R3 as [_ R3]. apply R3. reflexivity. }
  split. { unfold line_room, slope_room, flip, is_int, INT_MIN, INT_MAX. cbn [fst snd]. do 3 (split; [lia|]).
    intros s e [E|E]; inversion E; subst; cbn [fst snd]; split; intros; split; lia. }
  split; [vm_compute; reflexivity|]. split; [vm_compute; reflexivity|]. split; [vm_compute; reflexivity|]. split; [vm_compute; reflexivity|].
  exists 20%nat. eexists. vm_compute. reflexivity.
Qed.
(** a circle whose right end is the last [int]: it can be drawn, but not filled *)
Example C83_circle_case : circle_room (2147483644, 4) 3 false /\ ~ circle_room (2147483644, 4) 3 true /\
  returns (fun fuel => drawCircle fuel far (2147483644, 4) 3 false) /\ drawCircle 40 far (2147483644, 4) 3 true = UB /\
  drawCircle 40 far (0, 0) 1073741824 false = UB /\ drawCircle 40 far (0, 0) (-536870911) false = UB /\
  returns (fun fuel => drawCircle fuel far (0, 0) (-536870910) false).
Proof.
  split; [unfold circle_room, is_int, INT_MIN, INT_MAX; cbn [fst snd Z.leb Z.compare]; do 4 (split; [lia|]); apply error_fits_small; lia|].
  split; [unfold circle_room, is_int, INT_MIN, INT_MAX; cbn [fst snd Z.leb Z.compare]; clear; intros H; lia|].
  split; [exists 40%nat; eexists; vm_compute; reflexivity|]. split; [vm_compute; reflexivity|]. split; [vm_compute; reflexivity|].
  split; [vm_compute; reflexivity|]. exists 40%nat. eexists. vm_compute. reflexivity.
Qed.
