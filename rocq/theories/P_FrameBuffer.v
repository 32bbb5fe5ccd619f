(** Properties of graphics/SimpleFrameBuffer.h (C22-C25). *)
From Verif Require Import Base S_Graphics M_FrameBuffer S_Paint S_Outside L_FrameBuffer L_Outside.
Ltac Zify.zify_post_hook ::= Z.div_mod_to_equations.

Definition same_geometry (f g : fb) : Prop := fw g = fw f /\ fh g = fh f /\ fd g = fd f.
Definition image_pixel (f : fb) (x y : Z) : Z := pixel (getImage f) (getWidth f) (fd f) x y.
Definition inside (f : fb) (x y : Z) : Prop := 0 <= x < getWidth f /\ 0 <= y < getHeight f.

(** C22: drawPixel changes exactly one pixel (all depths but 2). *)
Theorem C22_drawPixel : forall f x y c,
  fb_wf f -> fd f <> 2 -> inside f x y -> 0 <= c ->
  exists f', drawPixel3 f x y c = Ok f' /\ fb_wf f' /\ same_geometry f f' /\
    selectedColor f' = selectedColor f /\
    image_pixel f' x y = colour (fd f) c /\
    (forall x' y', inside f x' y' -> (x', y') <> (x, y) -> image_pixel f' x' y' = image_pixel f x' y') /\
    (forall i, 0 <= i < 8 * zlen (getImage f) -> i / fd f <> y * getWidth f + x ->
       img_bit (getImage f') i = img_bit (getImage f) i).
Proof.
  intros f x y c Hwf H2 [Hx Hy] Hc. destruct (draw_ok f x y c Hwf H2 Hx Hy) as [m' [E S]].
  pose proof (accepted_facts _ _ _ (proj1 Hwf)) as [_ [_ [Hd _]]].
  exists (set_buf f m'). split; [exact E|].
  split; [apply set_buf_wf; [exact Hwf|exact (proj1 S)|exact (proj1 (proj2 S))]|].
  split; [repeat split|]. split; [reflexivity|].
  unfold image_pixel, getImage, inside in *.
  change (getWidth (set_buf f m')) with (getWidth f). change (buf (set_buf f m')) with m'.
  change (fd (set_buf f m')) with (fd f). unfold getHeight in *.
  split; [|split].
  - rewrite (stored_pixel (fd f) (y * getWidth f + x) c (buf f) m' (getWidth f) x y); [|lia|exact Hc|nia|exact S]. rewrite Z.eqb_refl. reflexivity.
  - intros x' y' [Hx' Hy'] Hne. rewrite (stored_pixel (fd f) (y * getWidth f + x) c (buf f) m' (getWidth f) x' y'); [|lia|exact Hc|nia|exact S].
    destruct (Z.eqb_spec (y' * getWidth f + x') (y * getWidth f + x)) as [He|_]; [|reflexivity].
    exfalso. apply Hne. apply pix_split in He; [|lia|lia]. destruct He as [-> ->]. reflexivity.
  - intros i Hi Hne. rewrite (proj2 (proj2 S)) by lia.
    rewrite (proj2 (Z.eqb_neq _ _) Hne). reflexivity.
Qed.
Print Assumptions C22_drawPixel.

(** C22: any coordinates.  drawPixel does not clip: it draws the pixel the coordinates land on, which may lie in another
    row, and has undefined behaviour exactly when there is none. *)
Theorem C22_anywhere : forall f x y c,
  fb_wf f -> fd f <> 2 ->
  (forall q, lands f x y q ->
     inside f (q mod getWidth f) (q / getWidth f) /\
     drawPixel3 f x y c = drawPixel3 f (q mod getWidth f) (q / getWidth f) c) /\
  ((forall q, ~ lands f x y q) -> drawPixel3 f x y c = UB).
Proof.
  intros f x y c Hwf H2. destruct (draw_any f x y c Hwf H2) as [A B]. split; [|exact B].
  intros q Hq. destruct (A q Hq) as [X [Y E]]. split; [split; assumption|exact E].
Qed.
Print Assumptions C22_anywhere.

(** 16 x 2: column 20 of row 0 is column 4 of row 1; column 13 of row -1 reaches the first byte; column -8 of
    row 1 is column 8 of row 0; the others have undefined behaviour *)
Example C22_anywhere_case :
  let f := mkFb 16 2 1 [0; 0; 0; 0] 1 in
  drawPixel3 f 20 0 1 = Ok (mkFb 16 2 1 [0; 0; 8; 0] 1) /\ lands f 20 0 20 /\
  drawPixel3 f 13 (-1) 1 = Ok (mkFb 16 2 1 [4; 0; 0; 0] 1) /\ lands f 13 (-1) 5 /\
  drawPixel3 f (-8) 1 1 = Ok (mkFb 16 2 1 [0; 128; 0; 0] 1) /\ lands f (-8) 1 8 /\
  drawPixel3 f (-1) 1 1 = UB /\ drawPixel3 f 0 2 1 = UB /\ drawPixel3 f 8 (-1) 1 = UB.
Proof. unfold lands. cbn. unfold INT_MIN, INT_MAX. repeat split; try reflexivity; lia. Qed.

(** C22: the two-argument form does the same with the selected colour. *)
Theorem C22_drawPixel2 : forall f x y,
  fb_wf f -> fd f <> 2 -> inside f x y -> 0 <= selectedColor f ->
  exists f', drawPixel2 f x y = Ok f' /\ fb_wf f' /\ same_geometry f f' /\
    image_pixel f' x y = colour (fd f) (selectedColor f) /\
    (forall x' y', inside f x' y' -> (x', y') <> (x, y) -> image_pixel f' x' y' = image_pixel f x' y').
Proof.
  intros f x y Hwf H2 Hi Hc. destruct (C22_drawPixel f x y (selectedColor f) Hwf H2 Hi Hc) as [f' [A [B [C [_ [D [E _]]]]]]].
  exists f'. auto.
Qed.
Print Assumptions C22_drawPixel2.

(** a 16 x 1 image of depth 1, and a 4-pixel-wide request at depth 4 *)
Example C22_case1 :
  let f := mkFb 16 1 1 [240; 15] 1 in
  fb_wf f /\ inside f 9 0 /\
  drawPixel3 f 9 0 2 = Ok (mkFb 16 1 1 [240; 79] 1) /\ drawPixel3 f 1 0 0 = Ok (mkFb 16 1 1 [176; 15] 1).
Proof.
  cbv zeta. split; [|split; [split; vm_compute; split; congruence|split; reflexivity]].
  split; [reflexivity|]. split; [reflexivity|]. apply Forall_cons; [split; lia|]. apply Forall_cons; [split; lia|]. constructor.
Qed.
Example C22_case4 :
  drawPixel3 (mkFb 2 1 4 [1; 35; 69; 103] 15) 3 0 171 = Ok (mkFb 2 1 4 [1; 43; 69; 103] 15) /\
  getWidth (mkFb 2 1 4 [1; 35; 69; 103] 15) = 8.
Proof. split; reflexivity. Qed.

(** C23: clear paints every pixel, whatever was there. *)
Theorem C23_clear : forall f c,
  fb_wf f -> fd f <> 2 -> 0 <= c ->
  exists f', clear f c = Ok f' /\ fb_wf f' /\ same_geometry f f' /\ selectedColor f' = selectedColor f /\
    forall x y, inside f x y -> image_pixel f' x y = colour (fd f) c.
Proof.
  intros f c Hwf H2 Hc. destruct (clear_ok f c Hwf H2) as [m' [E [L [B F]]]].
  pose proof (accepted_facts _ _ _ (proj1 Hwf)) as [_ [_ [Hd [_ [_ [HW [H8 _]]]]]]].
  exists (set_buf f m'). split; [exact E|]. split; [apply set_buf_wf; auto|]. split; [repeat split|]. split; [reflexivity|].
  intros x y [Hx Hy]. unfold getHeight in *. unfold image_pixel, getImage.
  change (getWidth (set_buf f m')) with (getWidth f). change (buf (set_buf f m')) with m'.
  change (fd (set_buf f m')) with (fd f). unfold pixel.
  rewrite (bits_val_testbit _ _ _ (colour (fd f) c)).
  - rewrite Z2Nat.id by lia. apply Z.mod_small. apply colour_range; lia.
  - intros k Hk. rewrite Z2Nat.id in * by lia.
    destruct (bit_pos (fd f) (y * getWidth f + x) k ltac:(lia) ltac:(lia)) as [_ Hm].
    rewrite F, Hm; [reflexivity|]. destruct Hwf as [_ [Hz _]]. rewrite Hz, H8. unfold getWidth in *.
    set (W := effectiveWidth (fw f) (fd f)) in *. split; [nia|].
    assert (y * W + x + 1 <= W * fh f) by nia. nia.
Qed.
Print Assumptions C23_clear.

(** C23: the image after clear depends only on the geometry and the colour. *)
Theorem C23_clear_determined : forall f g c f' g',
  fb_wf f -> fb_wf g -> same_geometry f g -> fd f <> 2 ->
  clear f c = Ok f' -> clear g c = Ok g' -> getImage f' = getImage g'.
Proof.
  intros f g c f' g' Wf Wg [G1 [G2 G3]] H2 E1 E2.
  destruct (clear_ok f c Wf H2) as [m1 [F1 [L1 [B1 P1]]]].
  destruct (clear_ok g c Wg ltac:(lia)) as [m2 [F2 [L2 [B2 P2]]]].
  rewrite F1 in E1. rewrite F2 in E2. apply Ok_inj in E1, E2. subst f' g'. unfold getImage. cbn [set_buf buf].
  assert (Hl : zlen (buf f) = zlen (buf g)).
  { destruct Wf as [_ [-> _]], Wg as [_ [-> _]]. rewrite G1, G2, G3. reflexivity. }
  apply img_ext; [exact B1|exact B2|lia|]. intros i Hi. rewrite P1, P2 by lia. rewrite G3. reflexivity.
Qed.
Print Assumptions C23_clear_determined.

Example C23_case :
  clear (mkFb 8 2 1 [170; 85] 1) 6 = Ok (mkFb 8 2 1 [255; 255] 1) /\
  clear (mkFb 1 2 4 [0; 0] 15) 7 = Ok (mkFb 1 2 4 [0; 0] 15) /\
  clear (mkFb 2 1 4 [9; 9; 9; 9] 15) 21 = Ok (mkFb 2 1 4 [85; 85; 85; 85] 15).
Proof. repeat split; reflexivity. Qed.

(** C23: setColor selects the colour modulo 2^depth for later two-argument drawPixel calls, and
    touches no pixel.  (A frame buffer of depth 32 cannot be constructed, see C24.) *)
Theorem C23_setColor : forall f c,
  fb_wf f -> fd f <> 2 -> fd f <> 32 -> 0 <= c ->
  exists f', setColor f c = Ok f' /\ same_geometry f f' /\ getImage f' = getImage f /\
    forall x y, inside f x y -> exists g, drawPixel2 f' x y = Ok g /\ image_pixel g x y = c mod 2 ^ fd f.
Proof.
  intros f c Hwf H2 H32 Hc. pose proof (accepted_facts _ _ _ (proj1 Hwf)) as [_ [_ [Hd _]]].
  rewrite setColor_ok by lia. eexists. split; [reflexivity|]. split; [repeat split|]. split; [reflexivity|].
  intros x y Hxy. unfold drawPixel2. cbn [selectedColor].
  set (f' := mkFb (fw f) (fh f) (fd f) (buf f) (c mod 2 ^ fd f)).
  assert (Hr : 0 <= c mod 2 ^ fd f < 2 ^ fd f) by (apply Z.mod_pos_bound; apply Z.pow_pos_nonneg; lia).
  destruct (C22_drawPixel f' x y (c mod 2 ^ fd f)) as [g [E [_ [_ [_ [P _]]]]]]; [exact Hwf|exact H2|exact Hxy|lia|].
  exists g. split; [exact E|]. rewrite P. cbn [fd f']. unfold colour.
  destruct (Z.eqb_spec (fd f) 1) as [H1|H1].
  - rewrite H1 in *. change (2 ^ 1) with 2 in *. destruct (Z.eqb_spec (c mod 2) 0); lia.
  - apply Z.mod_small. exact Hr.
Qed.
Print Assumptions C23_setColor.
Example C23_setColor_case :
  setColor (mkFb 2 1 4 [9; 9; 9; 9] 15) 21 = Ok (mkFb 2 1 4 [9; 9; 9; 9] 5) /\
  drawPixel2 (mkFb 2 1 4 [9; 9; 9; 9] 5) 2 0 = Ok (mkFb 2 1 4 [9; 89; 9; 9] 5).
Proof. split; reflexivity. Qed.

(** C23: at depth 1, clear and setColor disagree about even non-zero colours. *)
Theorem C23_even_colour : forall f c,
  fb_wf f -> fd f = 1 -> 0 < c -> c mod 2 = 0 ->
  exists f1 f2, clear f c = Ok f1 /\ setColor f1 c = Ok f2 /\
    forall x y, inside f x y ->
      image_pixel f2 x y = 1 /\ exists g, drawPixel2 f2 x y = Ok g /\ image_pixel g x y = 0.
Proof.
  intros f c Hwf H1 Hc He. destruct (C23_clear f c Hwf ltac:(lia) ltac:(lia)) as [f1 [E1 [W1 [[G1 [G2 G3]] [_ P1]]]]].
  destruct (C23_setColor f1 c W1 ltac:(lia) ltac:(lia) ltac:(lia)) as [f2 [E2 [[K1 [K2 K3]] [I2 P2]]]].
  exists f1, f2. split; [exact E1|]. split; [exact E2|]. intros x y Hxy.
  assert (Hin : inside f1 x y). { unfold inside, getWidth, getHeight in *. rewrite G1, G2, G3. exact Hxy. }
  split.
  - unfold image_pixel, getWidth. rewrite I2, K1, K3. fold (getWidth f1). fold (image_pixel f1 x y). rewrite P1 by exact Hxy.
    unfold colour. rewrite H1. replace (c =? 0) with false by lia. reflexivity.
  - destruct (P2 x y Hin) as [g [E P]]. exists g. split; [exact E|]. rewrite P, G3, H1. exact He.
Qed.
Print Assumptions C23_even_colour.
Example C23_even_colour_case : fb_wf (mkFb 8 2 1 [170; 85] 1).
Proof.
  split; [reflexivity|]. split; [reflexivity|]. apply Forall_cons; [split; lia|]. apply Forall_cons; [split; lia|]. constructor.
Qed.

(** C24: at depth 2, pixels in columns 0 and 1 modulo 4 are zeroed, the colour is or-ed into the pixel
    two to the right; columns 2 and 3 modulo 4 shift by a negative count. *)
Theorem C24_left_columns : forall f x y c,
  fb_wf f -> fd f = 2 -> inside f x y -> x mod 4 < 2 -> 0 <= c ->
  exists f', drawPixel3 f x y c = Ok f' /\ fb_wf f' /\ same_geometry f f' /\
    image_pixel f' x y = 0 /\
    image_pixel f' (x + 2) y = Z.lor (image_pixel f (x + 2) y) (c mod 4) /\
    inside f (x + 2) y /\
    forall x' y', inside f x' y' -> (x', y') <> (x, y) -> (x', y') <> (x + 2, y) ->
      image_pixel f' x' y' = image_pixel f x' y'.
Proof.
  intros f x y c Hwf H2 [Hx Hy] H4 Hc. destruct (draw_addr f x y Hwf Hx Hy) as [Hp [Hl [Hm Eq]]].
  unfold inside, getHeight in *. rewrite Eq, H2 in *.
  destruct (store2_left (buf f) (y * getWidth f + x) x c Hp ltac:(lia) H4 ltac:(lia) Hl) as [m' [-> [L [B F]]]].
  cbn [bind]. exists (set_buf f m'). split; [reflexivity|]. split; [apply set_buf_wf; auto|]. split; [repeat split|].
  unfold image_pixel, getImage. change (getWidth (set_buf f m')) with (getWidth f). change (buf (set_buf f m')) with m'.
  change (fd (set_buf f m')) with (fd f). rewrite H2.
  pose proof (accepted_facts _ _ _ (proj1 Hwf)) as [_ [_ [_ [_ [H8 _]]]]]. fold (getWidth f) in H8.
  assert (HP : forall x' y', 0 <= y' * getWidth f + x' -> pixel m' (getWidth f) 2 x' y' =
     if y' * getWidth f + x' =? y * getWidth f + x then 0
     else if y' * getWidth f + x' =? y * getWidth f + x + 2 then Z.lor (pixel (buf f) (getWidth f) 2 x' y') (c mod 4)
     else pixel (buf f) (getWidth f) 2 x' y').
  { intros x' y' H0. unfold pixel. change (Z.to_nat 2) with 2%nat. cbn [bits_val]. change (Z.of_nat 0) with 0. change (Z.of_nat 1) with 1.
    rewrite !F by lia. set (q := y' * getWidth f + x') in *. set (p := y * getWidth f + x) in *.
    replace ((q * 2 + 0) / 2) with q by lia. replace ((q * 2 + 1) / 2) with q by lia.
    replace ((q * 2 + 0) mod 2) with 0 by lia. replace ((q * 2 + 1) mod 2) with 1 by lia.
    destruct (q =? p); [reflexivity|]. destruct (q =? p + 2); [|reflexivity].
    change (1 - 0) with 1. change (1 - 1) with 0.
    assert (Hc4 : c mod 4 = 2 * (if Z.testbit c 1 then 1 else 0) + (if Z.testbit c 0 then 1 else 0)).
    { rewrite Z.bit0_odd. change 1 with (0 + 1) at 1. rewrite <- Z.shiftr_spec with (m := 0) by lia.
      rewrite Z.bit0_odd, Z.shiftr_div_pow2 by lia. change (2 ^ 1) with 2.
      pose proof (Zmod_odd c). pose proof (Zmod_odd (c / 2)). destruct (Z.odd c), (Z.odd (c / 2)); lia. }
    rewrite Hc4. destruct (img_bit (buf f) (q * 2 + 0)), (img_bit (buf f) (q * 2 + 1)), (Z.testbit c 1), (Z.testbit c 0); reflexivity. }
  assert (Hx2 : x + 2 < getWidth f) by lia.
  split; [|split; [|split]].
  - rewrite HP by lia. rewrite Z.eqb_refl. reflexivity.
  - rewrite HP by lia. replace (y * getWidth f + (x + 2) =? y * getWidth f + x) with false by lia.
    replace (y * getWidth f + (x + 2) =? y * getWidth f + x + 2) with true by lia. reflexivity.
  - lia.
  - intros x' y' [Hx' Hy'] N1 N2. rewrite HP by nia.
    destruct (Z.eqb_spec (y' * getWidth f + x') (y * getWidth f + x)) as [He|_].
    { exfalso. apply N1. apply pix_split in He; [|lia|lia]. destruct He as [-> ->]. reflexivity. }
    destruct (Z.eqb_spec (y' * getWidth f + x') (y * getWidth f + x + 2)) as [He|_]; [|reflexivity].
    exfalso. apply N2. rewrite <- Z.add_assoc in He. apply pix_split in He; [|lia|lia]. destruct He as [-> ->]. reflexivity.
Qed.
Print Assumptions C24_left_columns.

Theorem C24_right_columns : forall f x y c,
  fb_wf f -> fd f = 2 -> inside f x y -> 2 <= x mod 4 -> drawPixel3 f x y c = UB.
Proof.
  intros f x y c Hwf H2 [Hx Hy] H4. destruct (draw_addr f x y Hwf Hx Hy) as [Hp [Hl [Hm Eq]]].
  rewrite Eq, H2 in *. rewrite store2_right by lia. reflexivity.
Qed.
Print Assumptions C24_right_columns.

(** hence no column gets a non-zero colour right *)
Theorem C24_never_intended : forall f x y c f',
  fb_wf f -> fd f = 2 -> inside f x y -> 0 <= c -> c mod 4 <> 0 ->
  drawPixel3 f x y c = Ok f' -> image_pixel f' x y <> c mod 4.
Proof.
  intros f x y c f' Hwf H2 Hin Hc Hc4 E. destruct (Z_lt_dec (x mod 4) 2) as [Hl|Hl].
  - destruct (C24_left_columns f x y c Hwf H2 Hin Hl Hc) as [g [E' [_ [_ [P _]]]]]. rewrite E' in E. apply Ok_inj in E. subst.
    rewrite P. congruence.
  - rewrite C24_right_columns in E by (auto; lia). discriminate.
Qed.
Print Assumptions C24_never_intended.

(** depth 32 cannot even be constructed; every other accepted depth can *)
Theorem C24_constructor : forall w h d init,
  accepted w h d = true ->
  (construct w h d init = UB <-> d = 32) /\
  (d <> 32 -> construct w h d init = Ok (mkFb w h d init (2 ^ d - 1))).
Proof.
  intros w h d init Ha. apply accepted_facts in Ha. destruct Ha as [_ [_ [Hd _]]].
  destruct Hd as [Hd|[Hd|[Hd|[Hd|[Hd|[Hd|Hd]]]]]]; rewrite Hd; unfold construct; cbn; split; try (split; [discriminate|lia]); try reflexivity.
  - split; reflexivity.
  - intros H. lia.
Qed.
Print Assumptions C24_constructor.

Example C24_case :
  let f := mkFb 4 1 2 [255; 228] 3 in
  accepted 4 1 2 = true /\ getWidth f = 8 /\
  drawPixel3 f 4 0 1 = Ok (mkFb 4 1 2 [255; 36] 3) /\ drawPixel3 f 5 0 3 = Ok (mkFb 4 1 2 [255; 199] 3) /\
  drawPixel3 f 6 0 1 = UB /\ accepted 1 1 32 = true.
Proof. repeat split; reflexivity. Qed.

(** C25: the geometry. *)
Theorem C25_geometry : forall w h d init f,
  accepted w h d = true -> construct w h d init = Ok f ->
  getWidth f = w * d / 8 * 8 /\ getHeight f = h /\
  8 * bufferSize w h d = getWidth f * getHeight f * d /\
  (getWidth f = w <-> (d = 1 /\ w mod 8 = 0) \/ w = 0).
Proof.
  intros w h d init f Ha E. pose proof (accepted_facts _ _ _ Ha) as [Hw [Hh [Hd [He [_ [_ [H8 _]]]]]]].
  unfold construct in E. destruct (shl1 d) eqn:Es; try discriminate. cbn [bind] in E. apply Ok_inj in E. subst.
  unfold getWidth, getHeight. cbn [fw fh fd]. rewrite H8, He. repeat (split; [reflexivity|]).
  destruct Hd as [Hd|[Hd|[Hd|[Hd|[Hd|[Hd|Hd]]]]]]; subst d; try lia.
Qed.
Print Assumptions C25_geometry.

(** which frame buffers compile, and so how wide one can be: the width times [2 ^ (depth - 1)] and the number
    of bits of the image must be values of [int] *)
Theorem C25_accepted : forall w h d,
  accepted w h d = true <->
  0 <= w /\ 0 <= h <= INT_MAX /\ w * d / 8 * 8 * h * d <= INT_MAX /\
  (d = 1 /\ w mod 8 = 0 /\ w <= 2147483640 \/ d = 2 /\ w mod 4 = 0 /\ w <= 1073741820 \/
   d = 4 /\ w <= 268435455 \/ d = 8 /\ w <= 16777215 \/ d = 16 /\ w <= 65535 \/ d = 24 /\ w <= 255 \/ d = 32 /\ w <= 1).
Proof. exact accepted_iff. Qed.
Print Assumptions C25_accepted.

Example C25_accepted_case :
  accepted 255 1 24 = true /\ accepted 256 1 24 = false /\ accepted 1 1 32 = true /\ accepted 2 1 32 = false /\
  accepted 128 160 16 = true /\ accepted 65536 0 16 = false /\ accepted 8 255 16 = true /\ accepted 4 8 2 = true /\ accepted 6 8 2 = false.
Proof. repeat split; reflexivity. Qed.

(** every bit of the image belongs to exactly one pixel *)
Theorem C25_partition : forall f,
  fb_wf f ->
  (forall x y k, inside f x y -> 0 <= k < fd f ->
     0 <= (y * getWidth f + x) * fd f + k < 8 * zlen (getImage f)) /\
  (forall i, 0 <= i < 8 * zlen (getImage f) ->
     exists x y k, inside f x y /\ 0 <= k < fd f /\ i = (y * getWidth f + x) * fd f + k) /\
  (forall x y k x' y' k', inside f x y -> inside f x' y' -> 0 <= k < fd f -> 0 <= k' < fd f ->
     (y * getWidth f + x) * fd f + k = (y' * getWidth f + x') * fd f + k' -> x = x' /\ y = y' /\ k = k').
Proof.
  intros f Hwf. pose proof (accepted_facts _ _ _ (proj1 Hwf)) as [_ [Hh [Hd [_ [_ [HW [H8 _]]]]]]].
  destruct Hwf as [_ [Hz _]]. unfold inside, getImage, getHeight, getWidth in *. rewrite Hz.
  set (W := effectiveWidth (fw f) (fd f)) in *. split; [|split].
  - intros x y k [Hx Hy] Hk. rewrite H8. assert (y * W + x + 1 <= W * fh f) by nia. nia.
  - intros i Hi. destruct (bit_cover W (fh f) (fd f) _ i ltac:(lia) H8 Hi HW Hh) as [x [y [k [A [B [C D]]]]]].
    exists x, y, k. auto.
  - intros x y k x' y' k' [Hx Hy] [Hx' Hy'] Hk Hk' He.
    destruct (bit_pos (fd f) (y * W + x) k ltac:(lia) Hk) as [D1 M1].
    destruct (bit_pos (fd f) (y' * W + x') k' ltac:(lia) Hk') as [D2 M2].
    rewrite He in D1, M1. rewrite D1 in D2. rewrite M1 in M2.
    apply pix_split in D2; [|lia|lia]. tauto.
Qed.
Print Assumptions C25_partition.

Example C25_case :
  accepted 16 4 1 = true /\ accepted 12 4 1 = false /\ accepted 3 2 16 = true /\
  effectiveWidth 16 1 = 16 /\ effectiveWidth 3 16 = 48 /\ bufferSize 3 2 16 = 192 /\ accepted 256 1 24 = false.
Proof. repeat split; reflexivity. Qed.
