(** Lemmas about pixels outside a frame buffer. *)
From Verif Require Import Base S_Graphics M_FrameBuffer S_Paint S_Outside L_FrameBuffer.
Ltac Zify.zify_post_hook ::= Z.div_mod_to_equations.

Lemma rem_same a b n : 0 < n -> 0 <= b -> a mod n = b mod n -> (a < 0 -> a mod n = 0) -> Z.rem a n = Z.rem b n.
Proof.
  intros Hn Hb Hm Ha. rewrite (Z.rem_mod_nonneg b n) by lia. destruct (Z_lt_dec a 0) as [H|H].
  - rewrite <- Hm, Ha by lia. apply Z.rem_divide; [lia|]. apply Z.mod_divide; [lia|]. auto.
  - rewrite Z.rem_mod_nonneg by lia. exact Hm.
Qed.
Lemma rem_neg a n : 0 < n -> a < 0 -> a mod n <> 0 -> Z.rem a n < 0.
Proof.
  intros Hn Ha Hm. assert (Z.rem a n <> 0). { rewrite Z.rem_divide, <- Z.mod_divide by lia. exact Hm. }
  pose proof (Z.rem_nonpos a n). lia.
Qed.
Lemma shr_neg c n : n < 0 -> shr c n = UB.
Proof. intros H. unfold shr. replace (0 <=? n) with false by lia. reflexivity. Qed.
Lemma rd_ub (m : list Z) o : ~ (0 <= o < zlen m) -> rd m o = UB.
Proof. intros H. unfold rd. replace (inb (zlen m) o 1) with false; [reflexivity|]. symmetry. apply inb_false. lia. Qed.
Lemma wr_ub (m : list Z) o v : ~ (0 <= o < zlen m) -> wr m o v = UB.
Proof. intros H. apply wr_slice_ub. unfold zlen in *. cbn [length]. lia. Qed.
Lemma bind_ub {A B} (r : res A) (k : A -> res B) : (forall a, k a = UB) -> r <> Fuel -> bind r k = UB.
Proof. intros H N. destruct r; cbn [bind]; auto. congruence. Qed.

(** a pixel that begins before or behind the image *)
Lemma store_ub d m off x c :
  (d = 1 \/ d = 4 \/ d = 8 \/ d = 16 \/ d = 24 \/ d = 32) -> ~ (0 <= off < zlen m) -> store_pixel d m off x c = UB.
Proof.
  intros Hd H. assert (N : forall a n, shr a n <> Fuel) by (intros; unfold shr; destruct (_ && _); discriminate).
  destruct Hd as [->|[->|[->|[->|[->| ->]]]]]; unfold store_pixel; cbn [Z.eqb Pos.eqb].
  - apply bind_ub; [|apply N]. intros a. rewrite rd_ub by exact H. reflexivity.
  - apply bind_ub; [|apply N]. intros a. rewrite rd_ub by exact H. reflexivity.
  - apply wr_ub, H.
  - rewrite wr_ub by exact H. reflexivity.
  - rewrite wr_ub by exact H. reflexivity.
  - rewrite wr_ub by exact H. reflexivity.
Qed.
(** a negative column inside a byte *)
Lemma store_shift_ub d m off x c :
  x < 0 -> (d = 1 /\ x mod 8 <> 0 \/ d = 4 /\ x mod 2 <> 0) -> store_pixel d m off x c = UB.
Proof.
  intros Hx [[-> H]|[-> H]]; unfold store_pixel; cbn [Z.eqb Pos.eqb].
  - rewrite shr_neg by (apply rem_neg; lia). reflexivity.
  - rewrite shr_neg; [reflexivity|]. pose proof (rem_neg x 2 ltac:(lia) Hx H). lia.
Qed.
(** only the place of the column in its byte matters *)
Lemma store_col d m off x x' c :
  d <> 2 -> (d = 1 -> Z.rem x 8 = Z.rem x' 8) -> (d = 4 -> Z.rem x 2 = Z.rem x' 2) ->
  store_pixel d m off x c = store_pixel d m off x' c.
Proof.
  intros H2 H1 H4. unfold store_pixel. destruct (Z.eqb_spec d 1) as [E|_]; [rewrite H1 by exact E; reflexivity|].
  destruct (Z.eqb_spec d 2) as [E|_]; [contradiction|].
  destruct (Z.eqb_spec d 4) as [E|_]; [rewrite H4 by exact E; reflexivity|]. reflexivity.
Qed.

Lemma draw_any f x y c :
  fb_wf f -> fd f <> 2 ->
  (forall q, lands f x y q ->
     0 <= q mod getWidth f < getWidth f /\ 0 <= q / getWidth f < getHeight f /\
     drawPixel3 f x y c = drawPixel3 f (q mod getWidth f) (q / getWidth f) c) /\
  ((forall q, ~ lands f x y q) -> drawPixel3 f x y c = UB).
Proof.
  intros Hwf H2. pose proof (draw_addr f) as Hda. pose proof Hwf as [Ha [Hz _]]. apply accepted_facts in Ha.
  destruct Ha as [_ [Hh [Hd [_ [Hm [HW [H8 [I1 [I2 [I3 I4]]]]]]]]]].
  assert (HE : drawPixel3 f x y c =
    do a <- chk (y * getWidth f); do b <- chk (a + x); do e <- chk (b * fd f);
    do m <- store_pixel (fd f) (buf f) (Z.quot e 8) x c; Ok (set_buf f m)) by reflexivity.
  rewrite HE. clear HE. unfold lands, getHeight, getWidth in *.
  set (W := effectiveWidth (fw f) (fd f)) in *. clearbody W.
  rewrite <- Hz in H8. set (n := y * W + x) in *.
  assert (Hd' : fd f = 1 \/ fd f = 4 \/ fd f = 8 \/ fd f = 16 \/ fd f = 24 \/ fd f = 32) by lia.
  assert (Hn8 : n mod 8 = x mod 8).
  { unfold n. replace W with (W / 8 * 8) by lia. rewrite Z.mul_assoc, Z.add_comm, Z.mod_add by lia. reflexivity. }
  split.
  - intros q [Hy [Hq [Hx Hn]]].
    assert (HWp : 0 < W). { destruct (Z.eq_dec W 0) as [E|E]; [rewrite E in Hq|]; lia. }
    pose proof (Z.mod_pos_bound q W HWp) as Hr. pose proof (Z.div_mod q W ltac:(lia)) as Hqe.
    assert (Hqd : 0 <= q / W < fh f) by (split; [apply Z.div_pos; lia|apply Z.div_lt_upper_bound; lia]).
    split; [exact Hr|]. split; [exact Hqd|].
    destruct (Hda (q mod W) (q / W) Hwf Hr Hqd) as [_ [_ [Hq8 E]]]. rewrite E.
    replace (q / W * W + q mod W) with q in * by (rewrite Z.mul_comm; exact Hqe).
    set (r := q mod W) in *. clearbody r. clear Hqe Hqd E Hda.
    set (A := W * fh f) in *. clearbody A.
    assert (Hnb : -8 < n < A /\ (n < 0 -> fd f = 1 /\ n > -8 \/ fd f = 4 /\ n = -1)) by (clear - Hn Hq; lia).
    assert (Hd1 : 1 <= fd f) by (clear - Hd'; lia).
    assert (HA : A <= INT_MAX) by (clear - I1 Hd1 Hq; nia).
    rewrite chk_ok by exact Hy. cbn [bind]. fold n.
    rewrite chk_ok by (clear - Hnb HA; unfold INT_MIN, INT_MAX in *; lia). cbn [bind].
    assert (Hnd : INT_MIN <= n * fd f <= INT_MAX).
    { clear - Hnb I1 Hd1. destruct Hnb as [Hb Hc]. unfold INT_MIN, INT_MAX in *. destruct (Z_lt_dec n 0) as [H|H]; [|nia].
      destruct (Hc H) as [[-> H3]|[-> H3]]; lia. }
    rewrite chk_ok by exact Hnd. cbn [bind].
    replace (Z.quot (n * fd f) 8) with (q * fd f / 8).
    2: { destruct Hn as [-> | [[Hn Hq0] [[H1 ->]|[H4 ->]]]].
         - rewrite Z.quot_div_nonneg; [reflexivity|clear - Hq Hd1; nia|lia].
         - rewrite H1, Z.mul_1_r, Z.mul_1_r. assert (Hz0 : Z.quot n 8 = 0) by (apply Z.quot_small_iff; clear - Hn Hq0; lia). rewrite Hz0. clear - Hn Hq0. lia.
         - rewrite H4. assert (Hn1 : n = -1) by (clear - Hn Hq0; lia). rewrite Hn1. reflexivity. }
    rewrite (store_col (fd f) (buf f) _ x r c H2); [reflexivity| |].
    + intros H1. apply rem_same; [lia|lia| |intros; apply Hx; assumption]. clear - Hn8 Hq8 Hn H1. lia.
    + intros H4. apply rem_same; [lia|lia| |intros; apply Hx; assumption]. clear - Hn8 Hq8 Hn H4. lia.
  - intros Hno. unfold chk at 1. destruct (in_int (y * W)) eqn:Ey; [|reflexivity]. cbn [bind]. apply in_int_true in Ey.
    fold n. unfold chk at 1. destruct (in_int n) eqn:En; [|reflexivity]. cbn [bind].
    unfold chk. destruct (in_int (n * fd f)) eqn:Ee; [|reflexivity]. cbn [bind]. clear En Ee Hda.
    assert (Hs : x < 0 /\ (fd f = 1 /\ x mod 8 <> 0 \/ fd f = 4 /\ x mod 2 <> 0) \/
                 (x < 0 -> (fd f = 1 -> x mod 8 = 0) /\ (fd f = 4 -> x mod 2 = 0))).
    { clear. destruct (Z_lt_dec x 0) as [H|H]; [|right; intros; contradiction].
      destruct (Z.eq_dec (x mod 8) 0), (Z.eq_dec (x mod 2) 0), (Z.eq_dec (fd f) 1), (Z.eq_dec (fd f) 4); tauto. }
    destruct Hs as [[Hx Hs]|Hx]; [rewrite store_shift_ub by assumption; reflexivity|].
    rewrite store_ub; [reflexivity|exact Hd'|]. intros Ho.
    set (A := W * fh f) in *. clearbody A n.
    destruct (Z_lt_dec n 0) as [Hn|Hn].
    + assert (Hq : - 8 < n * fd f).
      { destruct (Z_le_gt_dec (n * fd f) (-8)) as [H|H]; [|lia]. exfalso.
        assert (Z.quot (n * fd f) 8 <= Z.quot (-8) 8) by (apply Z.quot_le_mono; lia). cbn in *. lia. }
      destruct Hd' as [H1|[H4|Hd8]]; [| |clear - Hn Hq Hd8; nia].
      * apply (Hno (n + 8)). rewrite H1 in *. repeat split; try lia; apply Hx; lia.
      * apply (Hno (n + 2)). rewrite H4 in *. repeat split; try lia; apply Hx; lia.
    + apply (Hno n). assert (Hd1 : 1 <= fd f) by (clear - Hd'; lia).
      assert (Hnd : 0 <= n * fd f) by (clear - Hn Hd1; nia). rewrite Z.quot_div_nonneg in Ho by (clear - Hnd; lia).
      assert (n < A). { assert (Hlt : n * fd f < A * fd f) by (clear - Ho H8; lia). clear - Hlt Hd1. nia. }
      repeat split; try lia; apply Hx; lia.
Qed.
