(** Evaluating the drawings of the tests: a set of points instead of a list of bytes. *)
From Coq Require Import FMapPositive.
From Verif Require Import Base M_Geometry M_FrameBuffer M_Canvas M_Font M_FontData M_Pbm M_Scenes S_Graphics S_Paint S_Pbm L_FrameBuffer L_Canvas L_Pbm.

(** the points of a scene *)
Fixpoint plots (c : canvas) (s : scene) : res (list pt) :=
  match s with
  | [] => Ok []
  | op :: s => do ps <- op c; do qs <- plots c s; Ok (ps ++ qs)
  end.
Lemma draw_app c l : forall f m, draw c f (l ++ m) = do g <- draw c f l; draw c g m.
Proof.
  induction l as [|p l IH]; intros f m; [reflexivity|]. cbn [app draw].
  destruct (setIfVisible c f p); cbn [bind]; [apply IH|reflexivity|reflexivity].
Qed.
Lemma drawScene_plots c s : forall f ps, plots c s = Ok ps -> drawScene c f s = draw c f ps.
Proof.
  induction s as [|op s IH]; intros f ps H; cbn [plots drawScene] in *.
  - apply Ok_inj in H. subst. reflexivity.
  - destruct (op c) as [a| |]; cbn [bind] in *; try discriminate.
    destruct (plots c s) as [b| |]; cbn [bind] in *; try discriminate. apply Ok_inj in H. subst ps.
    rewrite draw_app. destruct (draw c f a); cbn [bind]; auto.
Qed.

(** the set of visible points, by their numbers in the picture *)
Definition key (w : Z) (p : pt) : positive := Z.to_pos (1 + (snd p * w + fst p)).
Definition addPoint (c : canvas) (m : PositiveMap.t unit) (p : pt) : PositiveMap.t unit :=
  if visible c p then PositiveMap.add (key (cw c) p) tt m else m.
Definition pointSet (c : canvas) (ps : list pt) : PositiveMap.t unit :=
  fold_left (addPoint c) ps (PositiveMap.empty unit).
Definition hasKey (m : PositiveMap.t unit) (k : positive) : bool :=
  match PositiveMap.find k m with Some _ => true | None => false end.

Lemma key_inj c p q : in_grid (cw c, ch c) p -> in_grid (cw c, ch c) q -> key (cw c) p = key (cw c) q -> p = q.
Proof.
  unfold in_grid, in_box, key. cbn [fst snd]. intros Hp Hq E. apply Z2Pos.inj in E; [|nia|nia].
  assert (E' : snd p * cw c + fst p = snd q * cw c + fst q) by lia.
  apply pix_split in E'; [|lia|lia]. destruct p, q, E'. cbn [fst snd] in *. congruence.
Qed.
Lemma addPoint_key c m p q : in_grid (cw c, ch c) q ->
  hasKey (addPoint c m p) (key (cw c) q) = (if pt_dec q p then true else hasKey m (key (cw c) q)).
Proof.
  intros Hq. unfold addPoint. destruct (visible c p) eqn:V.
  - apply visible_iff in V. unfold hasKey. destruct (pt_dec q p) as [->|N].
    + rewrite PositiveMap.gss. reflexivity.
    + rewrite PositiveMap.gso; [reflexivity|]. intros E. apply N. apply (key_inj c); assumption.
  - destruct (pt_dec q p) as [->|N]; [|reflexivity]. apply visible_iff in Hq. congruence.
Qed.
Lemma pointSet_from c q : in_grid (cw c, ch c) q -> forall ps m,
  hasKey (fold_left (addPoint c) ps m) (key (cw c) q) = true <-> In q ps \/ hasKey m (key (cw c) q) = true.
Proof.
  intros Hq. induction ps as [|p ps IH]; intros m; cbn [fold_left In]; [tauto|].
  rewrite IH, addPoint_key by exact Hq. destruct (pt_dec q p) as [->|N]; [tauto|].
  split; [tauto|]. intros [[E|H]|H]; [congruence|tauto|tauto].
Qed.
Lemma pointSet_in c q ps : in_grid (cw c, ch c) q -> hasKey (pointSet c ps) (key (cw c) q) = true <-> In q ps.
Proof.
  intros Hq. unfold pointSet. rewrite pointSet_from by exact Hq. unfold hasKey. rewrite PositiveMap.gempty.
  split; [intros [H|H]; [exact H|discriminate]|tauto].
Qed.

(** do the pixels [px], from number [k] on, agree with the set? *)
Fixpoint agrees (m : PositiveMap.t unit) (k : positive) (px : list bool) : bool :=
  match px with
  | [] => true
  | b :: px => Bool.eqb b (hasKey m k) && agrees m (Pos.succ k) px
  end.
Lemma agrees_nth m px : forall k i, agrees m k px = true -> (i < length px)%nat ->
  nth i px false = hasKey m (Z.to_pos (Z.pos k + Z.of_nat i)).
Proof.
  induction px as [|b px IH]; intros k i H Hi; cbn [length] in Hi; [lia|]. cbn [agrees] in H.
  apply andb_true_iff in H. destruct H as [E H]. apply eqb_prop in E. destruct i as [|i].
  - cbn [nth]. rewrite E. reflexivity.
  - cbn [nth]. rewrite (IH (Pos.succ k) i H) by lia. do 2 f_equal. lia.
Qed.

(** a cleared monochrome frame buffer after a scene: the bits are the points *)
Lemma img_bit_pixel f x y : fd f = 1 -> 0 <= x -> 0 <= y ->
  img_bit (getImage f) (y * getWidth f + x) = (fpixel f (x, y) =? 1).
Proof.
  intros Hd Hx Hy. unfold fpixel, pixel. cbn [fst snd]. rewrite Hd. change (Z.to_nat 1) with 1%nat. cbn [bits_val].
  rewrite Z.mul_1_r, Z.add_0_r. destruct (img_bit _ _); reflexivity.
Qed.
Lemma redraw_picture r f s ps px : fb_wf f -> fd f = 1 -> selectedColor f = 1 ->
  let c := setRotation (newCanvas f) r in
  plots c (s c) = Ok ps -> zlen px = cw c * ch c -> agrees (pointSet c ps) 1 px = true ->
  exists g, redraw r f s = Ok g /\ fb_wf g /\ fw g = fw f /\ fh g = fh f /\ fd g = fd f /\ selectedColor g = 1 /\
    forall img, picture (bufferSize (fw f) (fh f) 1) px img -> getImage g = img.
Proof.
  intros Hwf Hd Hs c Hp HL HA. unfold redraw. fold c.
  destruct (clear_ok f 0 Hwf ltac:(lia)) as (m & E & Lm & Bm & Pm). rewrite E. cbn [bind].
  rewrite (drawScene_plots c (s c) _ ps Hp).
  pose proof (set_buf_wf f m Hwf Lm (fun _ => Bm)) as Wm.
  destruct (draw_plots c (set_buf f m) ps Wm) as (g & Eg & Wg & G1 & G2 & G3 & G4 & G5);
    [cbn [set_buf fd]; lia|split; reflexivity|cbn [set_buf selectedColor]; lia|].
  cbn [set_buf fw fh fd selectedColor] in *.
  exists g. split; [exact Eg|]. split; [exact Wg|]. split; [exact G1|]. split; [exact G2|]. split; [exact G3|].
  split; [congruence|]. intros img (Limg & Bimg & Pimg).
  destruct Wg as (Ag & Zg & Bg). rewrite G1, G2, G3, Hd in *.
  pose proof (accepted_facts _ _ _ Ag) as (_ & Hh & _ & _ & _ & HW & H8 & _).
  assert (HC : cw c = effectiveWidth (fw f) 1) by (unfold c, setRotation, newCanvas, getWidth; cbn [cw]; rewrite Hd; reflexivity).
  assert (HC' : ch c = fh f) by reflexivity.
  apply img_ext; [exact Bg|exact Bimg|unfold getImage; lia|]. intros i Hi. unfold getImage in Hi. rewrite Zg in Hi.
  rewrite Pimg by lia. assert (HN : 8 * bufferSize (fw f) (fh f) 1 = cw c * ch c) by (rewrite HC, HC', H8; lia).
  rewrite (agrees_nth _ px 1 (Z.to_nat i) HA) by (unfold zlen in HL; lia). rewrite Z2Nat.id by lia.
  set (W := cw c) in *. assert (HW0 : 0 < W) by nia.
  set (x := i mod W). set (y := i / W).
  assert (Hx : 0 <= x < W) by (apply Z.mod_pos_bound; lia).
  assert (Hy : 0 <= y < ch c) by (split; [apply Z.div_pos; lia|apply Z.div_lt_upper_bound; nia]).
  assert (Hi' : i = y * W + x) by (unfold x, y; rewrite (Z.div_mod i W) at 1 by lia; lia).
  assert (Hq : in_grid (cw c, ch c) (x, y)) by (unfold in_grid, in_box; cbn [fst snd]; lia).
  assert (GW : getWidth g = W) by (unfold getWidth; rewrite G1, G3; symmetry; exact HC).
  rewrite Hi' at 1. rewrite <- GW at 1. rewrite img_bit_pixel by (congruence || lia).
  change (Z.pos 1) with 1. replace (1 + i) with (1 + (snd (x, y) * W + fst (x, y))) by (cbn [fst snd]; lia).
  change (Z.to_pos (1 + (snd (x, y) * W + fst (x, y)))) with (key W (x, y)).
  destruct (G5 (x, y) Hq) as [I O]. pose proof (pointSet_in c (x, y) ps Hq) as K. fold W in K.
  destruct (in_dec pt_dec (x, y) ps) as [H|H].
  - rewrite I by exact H. rewrite (proj2 K H). rewrite Hs. reflexivity.
  - rewrite O by exact H. destruct (hasKey (pointSet c ps) (key W (x, y))) eqn:EK; [exfalso; apply H, K; reflexivity|].
    apply Z.eqb_neq. intros X. assert (Y : img_bit m i = true).
    { rewrite Hi'. pose proof (img_bit_pixel (set_buf f m) x y ltac:(cbn [set_buf fd]; lia) ltac:(lia) ltac:(lia)) as Q.
      rewrite X in Q. unfold getImage in Q. cbn [set_buf buf] in Q.
      replace (getWidth (set_buf f m)) with W in Q by (symmetry; unfold getWidth; cbn [set_buf fw fd]; rewrite Hd; symmetry; exact HC).
      exact Q. }
    rewrite Pm in Y; [|destruct Hwf as (_ & Z1 & _); rewrite Z1, Hd; lia]. change (colour 1 0) with 0 in Y.
    rewrite Z.bits_0 in Y. discriminate.
Qed.

(** ** Reference pictures *)
Lemma pixels_app a b : pixels_of (a ++ b) = pixels_of a ++ pixels_of b.
Proof. unfold pixels_of. rewrite filter_app, flat_map_app. reflexivity. Qed.
Lemma no_overrun n ls : zlen (pixels_of ls) <= 8 * n -> ~ overrun n ls.
Proof.
  intros H (before & c & l & after & -> & Hc & Hn).
  change ((c :: l) :: after) with ([c :: l] ++ after) in H. rewrite !pixels_app, !zlen_app in H.
  assert (D : pixels_of [c :: l] = (c =? 49) :: line_pixels l).
  { unfold pixels_of. cbn [filter data_line]. replace (negb (c =? 35)) with true by (unfold pixel_char in Hc; lia).
    cbn [flat_map]. rewrite app_nil_r. unfold line_pixels. cbn [filter]. rewrite Hc. reflexivity. }
  rewrite D, zlen_cons in H. pose proof (zlen_nonneg (line_pixels l)). pose proof (zlen_nonneg (pixels_of after)). lia.
Qed.

Definition eol (l : list Z) : list Z := l ++ [10].
Definition noEol (l : list Z) : bool := negb (existsb (Z.eqb 10) l).
Lemma noEol_spec l : noEol l = true -> no_eol l.
Proof.
  unfold noEol, no_eol. intros H Hi. apply negb_true_iff in H. rewrite <- not_true_iff_false in H. apply H.
  apply existsb_exists. exists 10. split; [exact Hi|reflexivity].
Qed.

(** what has to be computed about a scene and a picture *)
Definition matches (r : rotation) (w h : Z) (s : canvas -> scene) (px : list bool) : bool :=
  let c := mkCanvas w h r in
  match plots c (s c) with
  | Ok ps => (zlen px =? w * h) && agrees (pointSet c ps) 1 px
  | _ => false
  end.
Lemma redraw_matches r f s px : fb_wf f -> fd f = 1 -> selectedColor f = 1 ->
  matches r (getWidth f) (getHeight f) s px = true ->
  exists g, redraw r f s = Ok g /\ fb_wf g /\ fw g = fw f /\ fh g = fh f /\ fd g = fd f /\ selectedColor g = 1 /\
    forall img, picture (bufferSize (fw f) (fh f) 1) px img -> getImage g = img.
Proof.
  intros Hwf Hd Hs H. unfold matches in H. change (mkCanvas (getWidth f) (getHeight f) r) with (setRotation (newCanvas f) r) in H.
  destruct (plots _ _) as [ps| |] eqn:E; try discriminate. apply andb_true_iff in H. destruct H as [H1 H2].
  apply (redraw_picture r f s ps px); auto. apply Z.eqb_eq in H1. exact H1.
Qed.

Lemma read_lines w h hd ls : picture_size w h -> header P1 w h hd -> forallb noEol ls = true ->
  zlen (pixels_of ls) = 8 * image_bytes w h ->
  exists img, readPBM (hd ++ flat_map eol ls) = Ok (Some (w, h, img)) /\ picture (image_bytes w h) (pixels_of ls) img.
Proof.
  intros Hp Hh Hn HL. destruct (readPBM_text w h hd ls (flat_map eol ls) (size_read w h Hp) (header_read _ w h hd Hh Hp)) as [[O _]|[_ E]].
  - split; [|left; reflexivity]. apply Forall_forall. intros l Hl. apply noEol_spec.
    exact (proj1 (forallb_forall noEol ls) Hn l Hl).
  - exfalso. revert O. apply no_overrun. lia.
  - exact E.
Qed.
Lemma construct_mono w h init : accepted w h 1 = true -> zlen init = bufferSize w h 1 -> bytes init ->
  exists f, construct w h 1 init = Ok f /\ fb_wf f /\ fw f = w /\ fh f = h /\ fd f = 1 /\ selectedColor f = 1.
Proof.
  intros Ha HL HB. exists (mkFb w h 1 init 1). split; [reflexivity|]. split; [repeat split; assumption|]. repeat split.
Qed.

Lemma testRotation_true sg r drw hd ls init :
  zlen init = 16800 -> bytes init -> header P1 280 480 hd -> forallb noEol ls = true ->
  matches r 280 480 (fun c => drw sg (getSize c)) (pixels_of ls) = true ->
  testRotation sg r drw (hd ++ flat_map eol ls) init = Ok true.
Proof.
  intros HL HB Hh Hn HM. unfold testRotation.
  destruct (construct_mono 280 480 init ltac:(reflexivity) HL HB) as (f & -> & Wf & F1 & F2 & F3 & F4). cbn [bind].
  assert (GW : getWidth f = 280) by (unfold getWidth; rewrite F1, F3; reflexivity).
  assert (GH : getHeight f = 480) by exact F2.
  destruct (redraw_matches r f (fun c => drw sg (getSize c)) (pixels_of ls) Wf F3 F4) as (g & -> & Wg & G1 & G2 & G3 & _ & HI); [rewrite GW, GH; exact HM|].
  cbn [bind]. unfold checkBuffer.
  destruct (read_lines 280 480 hd ls) as (img & -> & P); [unfold picture_size; lia|exact Hh|exact Hn| |].
  { unfold matches in HM. destruct (plots _ _); try discriminate. apply andb_true_iff in HM. destruct HM as [HM _].
    apply Z.eqb_eq in HM. rewrite HM. reflexivity. }
  cbn [bind]. rewrite (HI img) by (rewrite F1, F2; exact P). rewrite Z.eqb_refl, eqbl_refl.
  unfold newCanvas, setRotation, getSize, getRotation. rewrite GW, GH. cbn [rot cw ch]. destruct r; reflexivity.
Qed.

Lemma redrawAll_true px img again : forall f, fb_wf f -> fw f = 48 -> fh f = 60 -> fd f = 1 -> selectedColor f = 1 ->
  picture 360 px img -> forallb (fun rs => matches (fst rs) 48 60 (fun _ => snd rs) px) again = true ->
  redrawAll f img again = Ok true.
Proof.
  induction again as [|[r s] again IH]; intros f Wf F1 F2 F3 F4 P H; cbn [redrawAll forallb fst snd] in *; [reflexivity|].
  apply andb_true_iff in H. destruct H as [H1 H2].
  destruct (redraw_matches r f (fun _ => s) px Wf F3 F4) as (g & -> & Wg & G1 & G2 & G3 & G4 & HI).
  { unfold getWidth, getHeight. rewrite F1, F2, F3. exact H1. }
  cbn [bind]. rewrite IH; [|exact Wg|congruence|congruence|congruence|exact G4|exact P|exact H2]. cbn [bind].
  rewrite (HI img) by (rewrite F1, F2; exact P). rewrite eqbl_refl. reflexivity.
Qed.

Lemma testLines_true s hd ls again init init2 :
  zlen init = 360 -> bytes init -> zlen init2 = 360 -> bytes init2 ->
  header P1 48 60 hd -> forallb noEol ls = true ->
  matches R0 48 60 (fun _ => s) (pixels_of ls) = true ->
  forallb (fun rs => matches (fst rs) 48 60 (fun _ => snd rs) (pixels_of ls)) again = true ->
  testLines s (hd ++ flat_map eol ls) again init init2 = Ok true.
Proof.
  intros HL HB HL2 HB2 Hh Hn HM HA. unfold testLines.
  destruct (construct_mono 48 60 init ltac:(reflexivity) HL HB) as (f & -> & Wf & F1 & F2 & F3 & F4). cbn [bind].
  assert (GW : getWidth f = 48) by (unfold getWidth; rewrite F1, F3; reflexivity).
  assert (GH : getHeight f = 60) by exact F2.
  destruct (redraw_matches R0 f (fun _ => s) (pixels_of ls) Wf F3 F4) as (g & -> & Wg & G1 & G2 & G3 & _ & HI); [rewrite GW, GH; exact HM|].
  cbn [bind]. unfold checkBuffer.
  destruct (read_lines 48 60 hd ls) as (img & -> & P); [unfold picture_size; lia|exact Hh|exact Hn| |].
  { unfold matches in HM. destruct (plots _ _); try discriminate. apply andb_true_iff in HM. destruct HM as [HM _].
    apply Z.eqb_eq in HM. rewrite HM. reflexivity. }
  cbn [bind].
  destruct (construct_mono 48 60 init2 ltac:(reflexivity) HL2 HB2) as (f2 & -> & Wf2 & E1 & E2 & E3 & E4). cbn [bind].
  rewrite (HI img) by (rewrite F1, F2; exact P).
  rewrite (redrawAll_true (pixels_of ls) img again f2 Wf2 E1 E2 E3 E4 P HA). cbn [bind].
  rewrite Z.eqb_refl, eqbl_refl. unfold newCanvas, getSize, getRotation. rewrite GW, GH. reflexivity.
Qed.

(** for texts and fonts of codes below 128 the signedness of [char] makes no difference *)
Lemma as_char_small sg b : 0 <= b < 128 -> as_char sg b = b.
Proof.
  intros H. destruct sg; [|reflexivity]. unfold as_char, s8. destruct (Z.ltb_spec (b mod 256) 128) as [K|K]; rewrite Z.mod_small in *; lia.
Qed.
Lemma glyphIndex_sign fuel sg f : 0 <= first f < 128 -> forall s, glyphIndex fuel sg f s = glyphIndex fuel true f s.
Proof.
  intros H. induction fuel as [|n IH]; intros s; [reflexivity|]. cbn [glyphIndex]. rewrite !(as_char_small _ (first f) H), IH. reflexivity.
Qed.
Lemma drawStringAt_sign fuel sg c f text : 0 <= first f < 128 -> Forall (fun b => 0 <= b < 128) text ->
  forall pos, drawStringAt fuel sg c f pos text = drawStringAt fuel true c f pos text.
Proof.
  intros H. induction text as [|b text IH]; intros HT pos; [reflexivity|]. cbn [drawStringAt].
  rewrite !(as_char_small _ b (Forall_inv HT)). unfold drawCharAt, getBitmap. rewrite (glyphIndex_sign _ sg) by exact H.
  destruct (bind (getShifts c) _) as [[l a]| |]; cbn [bind]; [|reflexivity|reflexivity].
  destruct (chk _) as [x| |]; cbn [bind]; [|reflexivity|reflexivity]. rewrite IH by exact (Forall_inv_tail HT). reflexivity.
Qed.
Lemma hello_sign sg c pos : drawStringAt M_Scenes.fuel sg c FreeSans15pt7b pos hello = drawStringAt M_Scenes.fuel true c FreeSans15pt7b pos hello.
Proof. apply drawStringAt_sign; [cbn; lia|]. unfold hello. repeat (constructor; [lia|]). constructor. Qed.
Lemma portrait_sign sg c size : plots c (portrait sg size) = plots c (portrait true size).
Proof. unfold portrait. cbn [plots]. rewrite (hello_sign sg). reflexivity. Qed.
Lemma landscape_sign sg c size : plots c (landscape sg size) = plots c (landscape true size).
Proof. unfold landscape. cbn [plots]. rewrite (hello_sign sg). reflexivity. Qed.
