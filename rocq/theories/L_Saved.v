(** Lemmas about saved frame buffers. *)
From Verif Require Import Base M_Geometry M_FrameBuffer M_Canvas M_Pbm M_Scenes S_Graphics S_Paint S_Pbm L_FrameBuffer L_Canvas L_Pbm L_Scenes.

Lemma rows_nth h cols : (1 <= cols)%nat -> forall d y, (y < h)%nat -> nth y (rows h cols d) [] = firstn cols (skipn (y * cols) d).
Proof.
  intros Hc. induction h as [|h IH]; intros d y Hy; [lia|]. destruct d as [|b d].
  - cbn [rows]. rewrite skipn_nil, firstn_nil. destruct y; reflexivity.
  - cbn [rows]. destruct y as [|y]; [reflexivity|]. cbn [nth]. rewrite IH by lia. rewrite skipn_add. f_equal. 
Qed.
Lemma rows_full h cols d : (1 <= cols)%nat -> length d = (h * cols)%nat ->
  length (rows h cols d) = h /\ Forall (fun r => length r = cols) (rows h cols d).
Proof.
  intros Hc. revert d. induction h as [|h IH]; intros d HL; [split; [reflexivity|constructor]|].
  destruct d as [|b d]; [cbn in HL; lia|]. cbn [rows length].
  destruct (IH (skipn cols (b :: d))) as [L F]; [rewrite skipn_length, HL; lia|].
  split; [f_equal; exact L|]. constructor; [rewrite firstn_length; lia|exact F].
Qed.
Lemma writeRows_text cols data h : (1 <= cols)%nat -> forall i, 0 <= i -> i + Z.of_nat h * Z.of_nat cols <= zlen data ->
  writeRows h cols data i = (flat_map eol (map row_text (rows h cols (skipn (Z.to_nat i) data))), true).
Proof.
  intros Hc. induction h as [|h IH]; intros i Hi HL; [reflexivity|]. cbn [writeRows].
  rewrite writeRow_spec by lia. rewrite Z.min_r by lia. replace (i + Z.of_nat cols <=? zlen data) with true by (symmetry; apply Z.leb_le; nia).
  rewrite IH by lia.
  assert (ER : rows (S h) cols (skipn (Z.to_nat i) data) = firstn cols (skipn (Z.to_nat i) data) :: rows h cols (skipn (Z.to_nat (i + Z.of_nat cols)) data)).
  { rewrite (skipn_at data i) at 1 by nia. cbn [rows]. rewrite <- (skipn_at data i) by nia. f_equal.
    rewrite skipn_add. f_equal. f_equal. lia. }
  rewrite ER. cbn [map flat_map]. unfold eol at 2. rewrite <- app_assoc. reflexivity.
Qed.

Lemma mono_size f : fb_wf f -> fd f = 1 ->
  exists k, 0 <= k /\ getWidth f = 8 * k /\ 0 <= getHeight f /\ zlen (getImage f) = k * getHeight f /\ getWidth f * getHeight f + 7 <= INT_MAX.
Proof.
  intros (Ha & HL & HB) Hd. unfold getWidth, getHeight, getImage. rewrite HL. rewrite Hd in *.
  unfold accepted in Ha. rewrite !andb_true_iff in Ha. repeat match goal with H : _ /\ _ |- _ => destruct H end.
  unfold in_int in *. unfold effectiveWidth, bufferSize in *. rewrite !Z.mul_1_r in *.
  exists (fw f / 8). unfold effectiveWidth in *. rewrite !Z.mul_1_r in *. rewrite Z.quot_div_nonneg in * by lia.
  assert (0 <= fw f / 8) by (apply Z.div_pos; lia).
  rewrite Z.quot_div_nonneg by nia. replace (fw f / 8 * 8 * fh f) with ((fw f / 8 * fh f) * 8) in * by lia.
  rewrite Z.div_mul by lia. repeat split; try lia. unfold INT_MAX in *. lia.
Qed.

Lemma saved_text f : fb_wf f -> fd f = 1 -> 0 < getWidth f -> 0 < getHeight f ->
  exists file ls, writePBM (getImage f) (getWidth f) (getHeight f) = Ok (file, true) /\
    text_picture (getWidth f) (getHeight f) ls file /\
    forall x y, 0 <= x < getWidth f -> 0 <= y < getHeight f -> shown ls (x, y) = (fpixel f (x, y) =? 1).
Proof.
  intros Wf Hd HW HH. destruct (mono_size f Wf Hd) as (k & Hk & EW & _ & EL & HM).
  set (W := getWidth f) in *. set (H := getHeight f) in *. set (d := getImage f) in *. unfold INT_MAX in HM.
  unfold writePBM. replace (H <=? 0) with false by lia. rewrite chk_ok by (unfold INT_MIN, INT_MAX; nia). cbn [bind].
  rewrite Z.quot_div_nonneg by lia. replace ((W + 7) / 8) with k by (rewrite EW; lia).
  rewrite writeRows_text; [|lia|lia|rewrite !Z2Nat.id by lia; lia]. change (skipn (Z.to_nat 0) d) with d.
  set (rs := rows (Z.to_nat H) (Z.to_nat k) d).
  destruct (rows_full (Z.to_nat H) (Z.to_nat k) d) as [RL RF]; [lia|unfold zlen in EL; nia|]. fold rs in RL, RF.
  eexists _, _. split; [reflexivity|]. split.
  - exists (pbmHeader magicP1 W H). split; [apply pbmHeader_header|]. split; [reflexivity|].
    split; [rewrite zlen_map; unfold zlen; rewrite RL; lia|].
    apply Forall_map. eapply Forall_impl; [|exact RF]. cbn beta. intros r Hr. split; [apply row_no_eol|].
    split; [|rewrite row_pixels, bits_len; unfold zlen; lia].
    destruct (row_head r) as (c & t & -> & Hc); [destruct r; [cbn in Hr; lia|discriminate]|]. cbn [data_line].
    unfold pixel_char in Hc. lia.
  - intros x y Hx Hy. unfold shown. cbn [fst snd]. rewrite <- img_bit_pixel by (assumption || lia).
    fold W. fold d. change (@nil Z) with (row_text []) at 1. rewrite map_nth. rewrite row_pixels. unfold rs. rewrite rows_nth by lia.
    rewrite <- (Z2Nat.id x) at 1 by lia. rewrite Nat2Z.id. rewrite <- img_bit_bits by lia.
    unfold img_bit. replace (y * W + x) with (x + (y * k) * 8) by lia. rewrite Z.div_add, Z.mod_add by lia.
    f_equal. unfold nthZ. assert (0 <= x / 8 < k) by lia.
    rewrite nth_firstn_lt by lia. rewrite nth_skipn_add. f_equal. nia.
Qed.

Lemma checkBuffer_iff c f file : canvas_of c f ->
  checkBuffer c f file = Ok true <-> readPBM file = Ok (Some (getWidth f, getHeight f, getImage f)).
Proof.
  intros [CW CH]. unfold checkBuffer. destruct (readPBM file) as [[[[w h] img]|]| |]; cbn [bind]; [|split; discriminate..].
  assert (E : match getRotation c with R0 | R180 => (w =? fst (getSize c)) && (h =? snd (getSize c))
              | R90 | R270 => (w =? snd (getSize c)) && (h =? fst (getSize c)) end = (w =? getWidth f) && (h =? getHeight f)).
  { unfold getRotation, getSize. destruct (rot c); cbn [fst snd]; rewrite CW, CH; reflexivity. }
  rewrite E. split.
  - intros H. apply Ok_inj in H. rewrite !andb_true_iff in H. destruct H as [[_ [H1 H2]] H3].
    apply Z.eqb_eq in H1, H2. apply eqbl_spec in H3. subst. reflexivity.
  - intros H. apply Ok_inj in H. injection H as -> -> ->. rewrite !Z.eqb_refl, eqbl_refl. reflexivity.
Qed.

Lemma cleared f p : fb_wf f -> fd f = 1 -> in_grid (getWidth f, getHeight f) p ->
  exists f0, clear f 0 = Ok f0 /\ fb_wf f0 /\ fd f0 = 1 /\ getWidth f0 = getWidth f /\ getHeight f0 = getHeight f /\
    selectedColor f0 = selectedColor f /\ fpixel f0 p = 0.
Proof.
  intros Wf Hd Hp. destruct (clear_ok f 0 Wf ltac:(lia)) as (m & E & Lm & Bm & Pm). exists (set_buf f m).
  split; [exact E|]. split; [apply set_buf_wf; auto|]. split; [exact Hd|]. split; [reflexivity|]. split; [reflexivity|]. split; [reflexivity|].
  unfold in_grid, in_box in Hp. cbn [fst snd] in Hp. destruct p as [x y]. cbn [fst snd] in Hp.
  pose proof (img_bit_pixel (set_buf f m) x y Hd ltac:(lia) ltac:(lia)) as Q.
  destruct (mono_size f Wf Hd) as (k & Hk & EW & _ & EL & _). unfold getImage in Q, EL. cbn [set_buf buf] in Q.
  rewrite Pm in Q; [|change (getWidth (set_buf f m)) with (getWidth f); rewrite EL; nia].
  rewrite Hd in Q. change (colour 1 0) with 0 in Q. rewrite Z.bits_0 in Q.
  unfold fpixel, pixel in *. cbn [set_buf fd fst snd] in *. rewrite Hd in *. change (Z.to_nat 1) with 1%nat in *. cbn [bits_val] in *.
  destruct (img_bit _ _); [discriminate|reflexivity].
Qed.
