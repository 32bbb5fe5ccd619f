(** Properties of the drawing primitives of graphics/Canvas (C26-C33). *)
From Verif Require Import Base S_Graphics M_Geometry M_FrameBuffer M_Canvas S_Paint L_Geometry L_FrameBuffer L_Canvas L_LineTurn L_Circle L_Paint.

(** C26: whatever the plotted points are, drawing them never leaves the image (all depths but 2). *)
Theorem C26_clipping : forall c f l,
  fb_wf f -> fd f <> 2 -> canvas_of c f -> 0 <= selectedColor f ->
  exists f', draw c f l = Ok f' /\ fb_wf f' /\ fw f' = fw f /\ fh f' = fh f /\ fd f' = fd f /\
    forall q, in_grid (cw c, ch c) q -> ~ In q l -> fpixel f' q = fpixel f q.
Proof.
  intros c f l A B C D. destruct (draw_plots c f l A B C D) as [f' [H1 [H2 [H3 [H4 [H5 [_ H6]]]]]]].
  exists f'. repeat (split; [assumption|]). intros q Hq. apply H6. exact Hq.
Qed.
Print Assumptions C26_clipping.

(** C26: a pixel. *)
Theorem C26_pixel : forall c a,
  near_canvas c -> near_pt a -> paints c (fun _ => drawPixel c a) (fun p => p = a).
Proof.
  intros c a Hc Ha. apply (paints_of c _ [phys c a]).
  - apply completes_const. unfold drawPixel. rewrite transformPoint_ok by assumption. reflexivity.
  - intros p _. cbn [In]. split; [intros [H|[]]; apply (phys_inj c); auto|intros ->; auto].
Qed.
Print Assumptions C26_pixel.

(** C26: every operation finishes without undefined behaviour (and [paints] says that drawing its
    points on any suitable frame buffer does, too). *)
Theorem C26_operations : forall c a b r rad filled,
  near_canvas c -> near_pt a -> near_pt b -> near_pt (tl r) -> near_pt (sz r) -> near rad ->
  (exists l, completes (fun _ => drawPixel c a) l) /\
  (exists l, completes (fun fuel => drawLine fuel c a b) l) /\
  (exists l, completes (fun _ => drawRectangle c r) l) /\
  (exists l, completes (fun fuel => drawFilledRectangle fuel c r) l) /\
  (exists l, completes (fun fuel => drawCircle fuel c a rad filled) l).
Proof.
  intros c a b r rad filled Hc Ha Hb Ht Hs Hr.
  split. { destruct (C26_pixel c a Hc Ha) as [l [H _]]. eauto. }
  split. { eexists. apply drawLine_ok; assumption. }
  split. { destruct (drawRectangle_ok c r Hc Ht Hs) as [l [H _]]. exists l. apply completes_const. exact H. }
  split. { destruct (drawFilledRectangle_ok c r Hc Ht Hs) as [l [H _]]. eauto. }
  unfold near in Hr. destruct (Z_le_dec 1 rad) as [H1|H1].
  - destruct (drawCircle_ok c a rad filled Hc Ha ltac:(lia)) as [l [H _]]. eauto.
  - destruct (drawCircle_flat c a rad filled Hc Ha ltac:(lia)) as [l [H _]]. eauto.
Qed.
Print Assumptions C26_operations.

(** a canvas of 16 x 8 pixels, turned by 90 degrees, on a cleared image *)
Definition demo : canvas := mkCanvas 16 8 R90.
Definition blank : fb := mkFb 16 8 1 (repeat 0 16) 1.
Lemma demo_ok : near_canvas demo /\ fb_wf blank /\ canvas_of demo blank.
Proof.
  split; [unfold near_canvas; cbn [cw ch demo]; lia|]. split; [|split; reflexivity].
  split; [reflexivity|]. split; [reflexivity|]. apply Forall_forall. intros x Hx. apply repeat_spec in Hx. subst. split; lia.
Qed.
Definition run (op : res (list pt)) : res (list Z) := do l <- op; do f <- draw demo blank l; Ok (getImage f).
Example C26_case :
  run (drawLine 40 demo (-2, 3) (9, 30)) = Ok [3; 128; 12; 0; 112; 0; 128; 0; 0; 0; 0; 0; 0; 0; 0; 0] /\
  run (drawPixel demo (100, 100)) = Ok (repeat 0 16) /\
  run (drawCircle 40 demo (4, 5) (-3) true) = Ok [0; 0; 0; 0; 0; 0; 0; 0; 1; 4; 0; 0; 0; 0; 0; 0].
Proof. repeat split; vm_compute; reflexivity. Qed.

(** C27: drawLine paints a digital line: one pixel per step of the longer axis, within half a pixel
    of the ideal line, connected, with both endpoints; straight lines are exact segments. *)
Theorem C27_line : forall c a b,
  near_canvas c -> near_pt a -> near_pt b ->
  exists l, digital_line a b l /\ In a l /\ In b l /\
    paints c (fun fuel => drawLine fuel c a b) (fun p => In p l) /\
    (fst a = fst b \/ snd a = snd b -> forall p, In p l <->
       Z.min (fst a) (fst b) <= fst p <= Z.max (fst a) (fst b) /\
       Z.min (snd a) (snd b) <= snd p <= Z.max (snd a) (snd b)).
Proof.
  intros c a b Hc Ha Hb. pose proof (lineSet_digital (phys c a) (phys c b)) as D.
  apply digital_line_logical in D.
  set (l := map (logical c) (lineSet (phys c a) (phys c b))) in *.
  exists l. split; [exact D|].
  assert (Hends : In a l /\ In b l).
  { destruct D as [s [e [Hse [_ [H0 [H1 _]]]]]]. apply nth_error_In in H0, H1.
    destruct Hse as [Hse|Hse]; inversion Hse; subst; auto. }
  split; [apply Hends|]. split; [apply Hends|]. split.
  - apply (paints_of c _ _ _ (drawLine_ok c a b Hc Ha Hb)). intros p _. unfold l. rewrite in_map_iff. split.
    + intros H. exists (phys c p). split; [apply logical_phys|exact H].
    + intros [q [<- H]]. rewrite phys_logical. exact H.
  - intros Hst. apply digital_line_straight; assumption.
Qed.
Print Assumptions C27_line.
(** C27: which pixels these are: in the frame buffer, where a pixel has two equally near neighbours the
    one nearer to the row (column) of the left (upper) end is taken. *)
Theorem C27_pixels : forall c a b,
  near_canvas c -> near_pt a -> near_pt b ->
  paints c (fun fuel => drawLine fuel c a b) (fun p => line_pixel (phys c a) (phys c b) (phys c p)).
Proof.
  intros c a b Hc Ha Hb. apply (paints_of c _ _ _ (drawLine_ok c a b Hc Ha Hb)). intros p _. apply lineSet_pixels.
Qed.
Print Assumptions C27_pixels.
Theorem C27_one_per_step : forall a b p q, line_pixel a b p -> line_pixel a b q ->
  (Z.abs (snd b - snd a) <= Z.abs (fst b - fst a) -> fst p = fst q -> p = q) /\
  (Z.abs (fst b - fst a) < Z.abs (snd b - snd a) -> snd p = snd q -> p = q).
Proof.
  assert (N : forall s e p q, nearest s e p -> nearest s e q -> fst p = fst q -> p = q).
  { intros s e [x y] [x' y'] (H1 & k & R & H2) (H3 & k' & R' & H4) E. cbn [fst snd] in *. subst x'.
    assert (k = k') by (apply (rounded_unique _ _ _ _ (Z.mul_nonneg_nonneg (x - fst s) (Z.abs (snd e - snd s)) ltac:(lia) (Z.abs_nonneg _)) (proj2 (Z.le_0_sub _ _) (Z.le_trans _ _ _ (proj1 H1) (proj2 H1))) R R')).
    congruence. }
  assert (F : forall p q : Z * Z, flip p = flip q -> p = q) by (intros [x y] [x' y'] E; unfold flip in E; cbn [fst snd] in E; congruence).
  intros a b p q (s & e & SE & P) (s' & e' & SE' & Q). split; intros Hm E.
  - destruct P as [(_ & P1 & P2)|(P0 & _)]; [|lia]. destruct Q as [(_ & Q1 & Q2)|(Q0 & _)]; [|lia].
    destruct SE as [SE|SE], SE' as [SE'|SE']; inversion SE; inversion SE'; subst; try (apply (N _ _ _ _ P2 Q2 E));
      assert (a = b) by (destruct a, b; cbn [fst snd] in *; f_equal; lia); subst; apply (N _ _ _ _ P2 Q2 E).
  - destruct P as [(P0 & _)|(_ & P1 & P2)]; [lia|]. destruct Q as [(Q0 & _)|(_ & Q1 & Q2)]; [lia|]. apply F.
    destruct SE as [SE|SE], SE' as [SE'|SE']; inversion SE; inversion SE'; subst; try lia; apply (N _ _ _ _ P2 Q2 E).
Qed.
Print Assumptions C27_one_per_step.
(** the point half way is drawn in the row of the left end *)
Example C27_tie : line_pixel (0, 0) (2, 1) (1, 0) /\ ~ line_pixel (0, 0) (2, 1) (1, 1) /\
  drawLine 40 (mkCanvas 8 8 R0) (2, 1) (0, 0) = Ok [(0, 0); (1, 0); (2, 1)].
Proof.
  assert (H : line_pixel (0, 0) (2, 1) (1, 0)).
  { exists (0, 0), (2, 1). split; [auto|]. left. cbn [fst snd]. split; [lia|]. split; [lia|]. split; [cbn [fst snd]; lia|]. exists 0. unfold rounded. cbn [fst snd]. lia. }
  split; [exact H|]. split; [|reflexivity]. intros K. apply (C27_one_per_step _ _ _ _ H) in K. destruct K as [K _]. specialize (K ltac:(cbn; lia) eq_refl). discriminate.
Qed.
Example C27_case :
  near_canvas demo /\ near_pt (-2, 3) /\ near_pt (9, 8) /\
  run (drawLine 40 demo (-2, 3) (9, 8)) = Ok [0; 16; 0; 16; 0; 32; 0; 32; 0; 64; 0; 64; 0; 128; 0; 128].
Proof. split; [apply demo_ok|]. repeat split; vm_compute; congruence. Qed.

(** C28: the order of the endpoints does not matter: same pixels, same order, same outcome. *)
Theorem C28_symmetric : forall fuel c a b, drawLine fuel c a b = drawLine fuel c b a.
Proof. exact drawLine_sym. Qed.
Print Assumptions C28_symmetric.
Example C28_case :
  drawLine 40 demo (9, 8) (-2, 3) =
    Ok [(12, -2); (12, -1); (11, 0); (11, 1); (10, 2); (10, 3); (9, 4); (9, 5); (8, 6); (8, 7); (7, 8); (7, 9)].
Proof. vm_compute. reflexivity. Qed.

(** C29: drawRectangle paints the border of a rectangle of positive size... *)
Theorem C29_border : forall c r,
  near_canvas c -> near_pt (tl r) -> near_pt (sz r) -> 0 < fst (sz r) -> 0 < snd (sz r) ->
  paints c (fun _ => drawRectangle c r) (border (tl r) (sz r)).
Proof.
  intros c r Hc Ht Hs Hw Hh. destruct (drawRectangle_ok c r Hc Ht Hs) as [l [E F]].
  apply (paints_of c _ l (border (tl r) (sz r)) (completes_const _ _ E)).
  intros p _. rewrite F. apply frame_border; assumption.
Qed.
Print Assumptions C29_border.

(** ... and in general the two rows and the two columns at its sides, *)
Theorem C29_any_size : forall c r,
  near_canvas c -> near_pt (tl r) -> near_pt (sz r) ->
  paints c (fun _ => drawRectangle c r) (frame (tl r) (sz r)).
Proof.
  intros c r Hc Ht Hs. destruct (drawRectangle_ok c r Hc Ht Hs) as [l [E F]].
  apply (paints_of c _ l (frame (tl r) (sz r)) (completes_const _ _ E)).
  intros p _. apply F.
Qed.
Print Assumptions C29_any_size.

(** ... so that an empty rectangle still paints two adjacent lines. *)
Theorem C29_empty_rectangle : forall c x y n,
  near_canvas c -> near x -> near y -> near n -> 0 < n ->
  paints c (fun _ => drawRectangle c (mkRect (x, y) (0, n)))
    (fun p => y <= snd p < y + n /\ (fst p = x \/ fst p = x - 1)) /\
  paints c (fun _ => drawRectangle c (mkRect (x, y) (n, 0)))
    (fun p => x <= fst p < x + n /\ (snd p = y \/ snd p = y - 1)) /\
  (forall q, ~ in_box (x, y) (0, n) q) /\ (forall q, ~ in_box (x, y) (n, 0) q).
Proof.
  intros c x y n Hc Hx Hy Hn Hp.
  assert (H0 : near 0) by (unfold near; lia).
  split; [|split].
  - apply (paints_ext c _ (frame (x, y) (0, n))); [intros p; unfold frame; cbn [fst snd]; lia|].
    apply (C29_any_size c (mkRect (x, y) (0, n))); [assumption|split; assumption|split; assumption].
  - apply (paints_ext c _ (frame (x, y) (n, 0))); [intros p; unfold frame; cbn [fst snd]; lia|].
    apply (C29_any_size c (mkRect (x, y) (n, 0))); [assumption|split; assumption|split; assumption].
  - split; intros q; unfold in_box; cbn [fst snd]; lia.
Qed.
Print Assumptions C29_empty_rectangle.
Example C29_case :
  run (drawRectangle demo (mkRect (1, 2) (3, 4))) = Ok [0; 0; 0; 60; 0; 36; 0; 60; 0; 0; 0; 0; 0; 0; 0; 0] /\
  run (drawRectangle demo (mkRect (1, 2) (0, 4))) = Ok [0; 60; 0; 60; 0; 0; 0; 0; 0; 0; 0; 0; 0; 0; 0; 0].
Proof. repeat split; vm_compute; reflexivity. Qed.

(** C30: drawFilledRectangle paints exactly the rectangle; it sets every visible pixel of it once and
    no other, and nothing if a side is not positive. *)
Theorem C30_filled : forall c r,
  near_canvas c -> near_pt (tl r) -> near_pt (sz r) ->
  paints c (fun fuel => drawFilledRectangle fuel c r) (in_box (tl r) (sz r)) /\
  exists l, completes (fun fuel => drawFilledRectangle fuel c r) l /\ NoDup l /\
    (forall q, In q l -> visible c q = true) /\
    (fst (sz r) <= 0 \/ snd (sz r) <= 0 -> l = []).
Proof.
  intros c r Hc Ht Hs. destruct (drawFilledRectangle_ok c r Hc Ht Hs) as [l [E [N [G F]]]]. split.
  - apply (paints_of c _ l _ E). intros p Hp. rewrite F. tauto.
  - exists l. split; [exact E|]. split; [exact N|]. split; [intros q Hq; apply visible_iff; auto|].
    intros H. destruct l as [|q l]; [reflexivity|]. exfalso.
    assert (Hq : In (phys c (logical c q)) (q :: l)) by (rewrite phys_logical; left; reflexivity).
    apply F in Hq. destruct Hq as [[H1 H2] _]. lia.
Qed.
Print Assumptions C30_filled.
Example C30_case :
  run (drawFilledRectangle 40 demo (mkRect (6, 2) (3, 4))) = Ok [0; 0; 0; 0; 0; 0; 0; 0; 0; 0; 0; 0; 0; 60; 0; 60] /\
  run (drawFilledRectangle 40 demo (mkRect (6, 2) (-3, 4))) = Ok (repeat 0 16).
Proof. repeat split; vm_compute; reflexivity. Qed.

(** C31: drawCircle paints the ring around the centre. *)
Theorem C31_circle : forall c ctr r,
  near_canvas c -> near_pt ctr -> 1 <= r <= 268435456 ->
  paints c (fun fuel => drawCircle fuel c ctr r false)
    (fun p => ring r (fst p - fst ctr, snd p - snd ctr)).
Proof.
  intros c ctr r Hc Hp Hr. destruct (drawCircle_ok c ctr r false Hc Hp Hr) as [l [E F]].
  apply (paints_of c _ l _ E). intros p _. apply F.
Qed.
Print Assumptions C31_circle.

(** C31: off the diagonals the ring consists of the pixels nearest to the ideal circle x^2+y^2=r^2
    along the longer axis (less than half a pixel away); it has the eight symmetries of the square
    and contains the four cardinal points. *)
Theorem C31_ring : forall r a b,
  1 <= r ->
  (Z.abs b < Z.abs a ->
     (ring r (a, b) <-> (2 * Z.abs a - 1) ^ 2 < 4 * (r ^ 2 - b ^ 2) < (2 * Z.abs a + 1) ^ 2)) /\
  (ring r (a, b) <-> ring r (b, a)) /\ (ring r (a, b) <-> ring r (- a, b)) /\ (ring r (a, b) <-> ring r (a, - b)) /\
  ring r (r, 0) /\ ring r (- r, 0) /\ ring r (0, r) /\ ring r (0, - r).
Proof.
  intros r a b Hr. split.
  - intros H. unfold ring. cbn [fst snd]. rewrite Z.max_l by lia.
    replace ((2 * Z.abs a - 1) ^ 2) with (4 * (Z.abs a * Z.abs a - Z.abs a) + 1) by ring.
    replace ((2 * Z.abs a + 1) ^ 2) with (4 * (Z.abs a * Z.abs a + Z.abs a) + 1) by ring.
    replace (r ^ 2) with (r * r) by ring. replace (b ^ 2) with (b * b) by ring. rewrite <- (Z.abs_square b).
    remember (Z.abs a * Z.abs a) as A. remember (Z.abs b * Z.abs b) as B. lia.
  - split; [apply ring_sym|]. split; [apply ring_sign; lia|]. split; [apply ring_sign; lia|].
    unfold ring. cbn [fst snd]. change (Z.abs 0) with 0. rewrite !Z.abs_opp, (Z.abs_eq r) by lia.
    repeat split; lia.
Qed.
Print Assumptions C31_ring.

(** C31: radius 0 paints the centre, a negative radius two pixels in one row of the frame buffer. *)
Theorem C31_flat : forall c ctr r filled,
  near_canvas c -> near_pt ctr -> -268435456 <= r <= 0 ->
  paints c (fun fuel => drawCircle fuel c ctr r filled)
    (fun p => snd (phys c p) = snd (phys c ctr) /\ Z.abs (fst (phys c p) - fst (phys c ctr)) = - r).
Proof.
  intros c ctr r filled Hc Hp Hr. destruct (drawCircle_flat c ctr r filled Hc Hp Hr) as [l [E F]].
  apply (paints_of c _ l _ E). intros p _. apply F.
Qed.
Print Assumptions C31_flat.
Example C31_case :
  run (drawCircle 40 demo (4, 5) 3 false) = Ok [0; 0; 0; 112; 0; 136; 1; 4; 1; 4; 1; 4; 0; 136; 0; 112] /\
  run (drawCircle 40 demo (4, 5) 0 true) = Ok [0; 0; 0; 0; 0; 0; 0; 0; 0; 32; 0; 0; 0; 0; 0; 0].
Proof. repeat split; vm_compute; reflexivity. Qed.

(** C32: a filled circle is the ring with its rows filled, ... *)
Theorem C32_filled : forall c ctr r,
  near_canvas c -> near_pt ctr -> 1 <= r <= 268435456 ->
  paints c (fun fuel => drawCircle fuel c ctr r true)
    (fun p => disc r (fst p - fst ctr, snd p - snd ctr)).
Proof.
  intros c ctr r Hc Hp Hr. destruct (drawCircle_ok c ctr r true Hc Hp Hr) as [l [E F]].
  apply (paints_of c _ l _ E). intros p _. apply F.
Qed.
Print Assumptions C32_filled.

(** ... has exactly the rows -r..r, each contiguous and centred, contains the outline, and is the
    same as the ring with its columns filled. *)
Theorem C32_rows : forall r,
  1 <= r ->
  (forall b, (exists a, disc r (a, b)) <-> - r <= b <= r) /\
  (forall a a' b, disc r (a, b) -> Z.abs a' <= Z.abs a -> disc r (a', b)) /\
  (forall q, ring r q -> disc r q) /\
  (forall a b, disc r (a, b) <-> disc r (b, a)).
Proof.
  intros r Hr. split; [intros b; apply disc_row; exact Hr|]. split; [|split].
  - intros a a' b [x [H1 H2]] H. exists x. cbn [fst snd] in *. split; [lia|exact H2].
  - intros [a b] H. exists (Z.abs a). cbn [fst snd]. split; [lia|]. apply (ring_sign r a b); [lia|reflexivity|exact H].
  - intros a b. rewrite !disc_closed_ok by exact Hr. apply disc_closed_sym.
Qed.
Print Assumptions C32_rows.
Example C32_case :
  run (drawCircle 40 demo (4, 5) 3 true) = Ok [0; 0; 0; 112; 0; 248; 1; 252; 1; 252; 1; 252; 0; 248; 0; 112] /\
  disc 3 (1, -2) /\ ~ disc 3 (3, 2).
Proof.
  split; [vm_compute; reflexivity|]. split.
  - exists 2. unfold ring. cbn [fst snd]. lia.
  - intros H. apply disc_closed_ok in H; [|lia]. unfold disc_closed in H. cbn [fst snd] in H. lia.
Qed.

(** C33: pixels, rectangles, filled rectangles and circles paint, in logical coordinates, one and the
    same set whatever the rotation and the size of the canvas. *)
Theorem C33_rotation : forall a r rad filled,
  near_pt a -> near_pt (tl r) -> near_pt (sz r) -> 0 <= rad <= 268435456 ->
  (exists S, forall c, near_canvas c -> paints c (fun _ => drawPixel c a) S) /\
  (exists S, forall c, near_canvas c -> paints c (fun _ => drawRectangle c r) S) /\
  (exists S, forall c, near_canvas c -> paints c (fun fuel => drawFilledRectangle fuel c r) S) /\
  (exists S, forall c, near_canvas c -> paints c (fun fuel => drawCircle fuel c a rad filled) S).
Proof.
  intros a r rad filled Ha Ht Hs Hr.
  split. { eexists. intros c Hc. apply C26_pixel; assumption. }
  split. { eexists. intros c Hc. apply C29_any_size; assumption. }
  split. { eexists. intros c Hc. apply C30_filled; assumption. }
  destruct (Z.eq_dec rad 0) as [->|Hr0].
  - exists (fun p => p = a). intros c Hc.
    eapply paints_ext; [|apply (C31_flat c a 0 filled Hc Ha); lia]. intros p. cbv beta. split.
    + intros H. apply (phys_inj c). destruct (phys c p), (phys c a). cbn [fst snd] in H. f_equal; lia.
    + intros ->. lia.
  - destruct filled.
    + eexists. intros c Hc. apply (C32_filled c a rad); [assumption|assumption|lia].
    + eexists. intros c Hc. apply (C31_circle c a rad); [assumption|assumption|lia].
Qed.
Print Assumptions C33_rotation.

(** C33: lines, and circles of negative radius, do not. *)
Lemma paints_witness c op (S : pt -> Prop) p l f f' :
  paints c op S -> completes op l -> fb_wf f -> fd f <> 2 -> canvas_of c f -> 0 <= selectedColor f ->
  in_grid (getSize c) p -> draw c f l = Ok f' ->
  (fpixel f' (phys c p) <> fpixel f (phys c p) -> ~ ~ S p) /\
  (fpixel f' (phys c p) <> colour (fd f) (selectedColor f) -> ~ S p).
Proof.
  intros [l' [Hl H]] Hl2 Hwf H2 Hc Hs Hp E.
  rewrite (completes_unique op l' l Hl Hl2) in H.
  destruct (H f Hwf H2 Hc Hs) as [f'' [E' [_ [_ [_ [_ [_ [_ F]]]]]]]].
  rewrite E in E'. apply Ok_inj in E'. subst f''. destruct (F p Hp) as [F1 F2]. split; intros Hn Hx; auto.
Qed.
Definition sq (r : rotation) : canvas := mkCanvas 8 8 r.
Definition sqf : fb := mkFb 8 8 1 (repeat 0 8) 1.
Lemma sq_ok r : near_canvas (sq r) /\ fb_wf sqf /\ canvas_of (sq r) sqf.
Proof.
  split; [unfold near_canvas; cbn [cw ch sq]; lia|]. split; [|split; reflexivity].
  split; [reflexivity|]. split; [reflexivity|]. apply Forall_forall. intros x Hx. apply repeat_spec in Hx. subst. split; lia.
Qed.
(** C33 for lines: a line none of whose intermediate points is half way between two pixels. *)
Theorem C33_line : forall a b,
  near_pt a -> near_pt b ->
  let L := Z.max (Z.abs (fst b - fst a)) (Z.abs (snd b - snd a)) in
  (forall i k, 0 < i < L -> 2 * (i * (fst b - fst a)) <> L * (2 * k + 1) /\ 2 * (i * (snd b - snd a)) <> L * (2 * k + 1)) ->
  exists S, forall c, near_canvas c -> paints c (fun fuel => drawLine fuel c a b) S.
Proof.
  intros a b Ha Hb L HT.
  exists (fun p => exists i, 0 <= i <= L /\ 2 * Z.abs (L * (fst p - fst a) - i * (fst b - fst a)) <= L /\ 2 * Z.abs (L * (snd p - snd a) - i * (snd b - snd a)) <= L /\ (L = 0 -> p = a)).
  intros c Hc. destruct (C27_line c a b Hc Ha Hb) as (l & D & _ & _ & (pl & PC & PP) & _). exists pl. split; [exact PC|].
  intros f W F2 CF SC. destruct (PP f W F2 CF SC) as (f' & X1 & X2 & X3 & X4 & X5 & X6 & X7 & X8). exists f'. repeat (split; [assumption|]).
  pose proof (digital_line_parts a b l D HT) as EQ. fold L in EQ.
  intros p Hp. destruct (X8 p Hp) as [Y1 Y2]. split; intros H; [apply Y1|apply Y2]; rewrite EQ; assumption.
Qed.
Print Assumptions C33_line.
Example C33_line_case : near_pt (0, 0) /\ near_pt (3, 1) /\
  forall i k, 0 < i < 3 -> 2 * (i * (3 - 0)) <> 3 * (2 * k + 1) /\ 2 * (i * (1 - 0)) <> 3 * (2 * k + 1).
Proof. split; [repeat split; vm_compute; congruence|]. split; [repeat split; vm_compute; congruence|]. lia. Qed.

Theorem C33_line_refuted : exists a b,
  near_pt a /\ near_pt b /\
  ~ exists S, forall c, near_canvas c -> paints c (fun fuel => drawLine fuel c a b) S.
Proof.
  exists (0, 0), (2, 1).
  assert (Ha : near_pt (0, 0)) by (split; unfold near; cbn [fst snd]; lia).
  assert (Hb : near_pt (2, 1)) by (split; unfold near; cbn [fst snd]; lia).
  split; [exact Ha|]. split; [exact Hb|]. intros [S H].
  destruct (sq_ok R0) as [C0 [W0 O0]]. destruct (sq_ok R180) as [C1 [_ O1]].
  pose proof (paints_witness (sq R0) _ S (1, 0) _ sqf (mkFb 8 8 1 [192; 32; 0; 0; 0; 0; 0; 0] 1)
    (H (sq R0) C0) (drawLine_ok (sq R0) _ _ C0 Ha Hb) W0 ltac:(discriminate) O0 ltac:(cbn; lia)) as P0.
  pose proof (paints_witness (sq R180) _ S (1, 0) _ sqf (mkFb 8 8 1 [0; 0; 0; 0; 0; 0; 6; 1] 1)
    (H (sq R180) C1) (drawLine_ok (sq R180) _ _ C1 Ha Hb) W0 ltac:(discriminate) O1 ltac:(cbn; lia)) as P1.
  destruct P0 as [P0 _]; [unfold in_grid, in_box; cbn; lia|vm_compute; reflexivity|].
  destruct P1 as [_ P1]; [unfold in_grid, in_box; cbn; lia|vm_compute; reflexivity|].
  apply P0; [vm_compute; discriminate|]. apply P1. vm_compute. discriminate.
Qed.
Print Assumptions C33_line_refuted.

Theorem C33_negative_radius_refuted : exists a rad,
  near_pt a /\ near rad /\
  ~ exists S, forall c, near_canvas c -> paints c (fun fuel => drawCircle fuel c a rad false) S.
Proof.
  exists (3, 3), (-2).
  assert (Ha : near_pt (3, 3)) by (split; unfold near; cbn [fst snd]; lia).
  split; [exact Ha|]. split; [unfold near; lia|]. intros [S H].
  destruct (sq_ok R0) as [C0 [W0 O0]]. destruct (sq_ok R90) as [C1 [_ O1]].
  assert (Q0 : completes (fun fuel => drawCircle fuel (sq R0) (3, 3) (-2) false) [(1, 3); (5, 3); (5, 3); (1, 3)]).
  { exists 1%nat. intros [|fuel] Hf; [lia|]. reflexivity. }
  assert (Q1 : completes (fun fuel => drawCircle fuel (sq R90) (3, 3) (-2) false) [(2, 3); (6, 3); (6, 3); (2, 3)]).
  { exists 1%nat. intros [|fuel] Hf; [lia|]. reflexivity. }
  pose proof (paints_witness (sq R0) _ S (1, 3) _ sqf (mkFb 8 8 1 [0; 0; 0; 68; 0; 0; 0; 0] 1)
    (H (sq R0) C0) Q0 W0 ltac:(discriminate) O0 ltac:(cbn; lia)) as P0.
  pose proof (paints_witness (sq R90) _ S (1, 3) _ sqf (mkFb 8 8 1 [0; 0; 0; 34; 0; 0; 0; 0] 1)
    (H (sq R90) C1) Q1 W0 ltac:(discriminate) O1 ltac:(cbn; lia)) as P1.
  destruct P0 as [P0 _]; [unfold in_grid, in_box; cbn; lia|vm_compute; reflexivity|].
  destruct P1 as [_ P1]; [unfold in_grid, in_box; cbn; lia|vm_compute; reflexivity|].
  apply P0; [vm_compute; discriminate|]. apply P1. vm_compute. discriminate.
Qed.
Print Assumptions C33_negative_radius_refuted.

Example C33_case :
  (do l <- drawCircle 40 (sq R0) (3, 2) 2 false; do f <- draw (sq R0) sqf l; Ok (getImage f)) = Ok [56; 68; 68; 68; 56; 0; 0; 0] /\
  (do l <- drawCircle 40 (sq R180) (3, 2) 2 false; do f <- draw (sq R180) sqf l; Ok (getImage f)) = Ok [0; 0; 0; 28; 34; 34; 34; 28].
Proof. split; vm_compute; reflexivity. Qed.
