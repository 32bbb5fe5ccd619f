(** Lemmas about the positions at which glyphs and texts can be drawn. *)
From Verif Require Import Base S_Graphics S_Ranges S_Font S_Paint S_TextRoom M_Geometry M_FrameBuffer M_Canvas M_Font L_Geometry L_FrameBuffer L_Canvas L_Circle L_Paint L_Font L_Ranges.
Ltac Zify.zify_post_hook ::= Z.div_mod_to_equations.

Section Room.
Variable c : canvas.
Hypothesis Hc : sized c.

Lemma getShifts_room : exists sh, getShifts c = Ok sh.
Proof.
  unfold getShifts, sized in *. destruct (rot c); rewrite ?chk_ok by (unfold INT_MIN; lia); cbn [bind]; rewrite ?chk_ok by (unfold INT_MIN; lia); cbn [bind]; eauto.
Qed.
Lemma plot_inv sh pos i j l : getShifts c = Ok sh -> plot c sh pos i j = Ok l ->
  is_point (fst pos + i, snd pos + j) /\ mirrored c (fst pos + i, snd pos + j) /\ is_point (phys c (fst pos + i, snd pos + j)).
Proof.
  intros Hs E. unfold plot, pt_add, mat_mul in E. repeat (apply bind_inv in E; destruct E as [? [? E]]).
  unfold getShifts, getTransformMatrix, sized, mirrored, is_point, is_int in *. rewrite phys_val.
  repeat match goal with H : bind _ _ = Ok _ |- _ => apply bind_inv in H; destruct H as [? [? H]] end.
  destruct (rot c); cbn [m0 m1 m2 m3] in *;
  repeat match goal with H : bind _ _ = Ok _ |- _ => apply bind_inv in H; destruct H as [? [? H]] end;
  repeat match goal with H : chk _ = Ok _ |- _ => apply chk_inv in H; destruct H end;
  repeat match goal with H : Ok _ = Ok _ |- _ => apply Ok_inj in H end; subst; cbn [fst snd] in *; lia.
Qed.
Lemma plot_room sh pos i j : getShifts c = Ok sh ->
  is_point (fst pos + i, snd pos + j) -> mirrored c (fst pos + i, snd pos + j) -> is_point (phys c (fst pos + i, snd pos + j)) ->
  plot c sh pos i j = Ok [phys c (fst pos + i, snd pos + j)].
Proof.
  intros Hs P N Q. unfold getShifts in Hs. rewrite phys_val in *. unfold mirrored, plot, pt_add, mat_mul, getTransformMatrix, sized, is_point, is_int, INT_MIN, INT_MAX in *.
  cbn [fst snd] in *. destruct (rot c); cbn [m0 m1 m2 m3] in *;
  repeat match goal with H : bind _ _ = Ok _ |- _ => apply bind_inv in H; destruct H as [? [? H]] end;
  repeat match goal with H : chk _ = Ok _ |- _ => apply chk_inv in H; destruct H end; apply Ok_inj in Hs; subst sh; subst;
  cbn [fst snd] in *; repeat (rewrite chk_ok by (unfold INT_MIN, INT_MAX in *; cbn [fst snd] in *; lia); cbn [bind fst snd]); do 2 f_equal; apply f_equal2; lia.
Qed.

Lemma glyphRow_plots sh pos bits s w n : forall i j l p,
  0 <= i -> i + Z.of_nat n = w -> 0 <= j -> 0 <= s ->
  glyphRow n (getTransformMatrix c) sh pos bits w i j (s + (i + j * w) / 8) = Ok (l, p) ->
  forall i', i <= i' < w -> img_bit bits (8 * s + j * w + i') = true -> exists l', plot c sh pos i' j = Ok l'.
Proof.
  induction n as [|n IH]; intros i j l p Hi Hn Hj Hs E i' Hi' B; [lia|]. cbn [glyphRow] in E.
  apply bind_inv in E. destruct E as [b [E1 E]]. apply bind_inv in E. destruct E as [ps [E2 E]].
  rewrite next_ptr in E by nia. apply bind_inv in E. destruct E as [[l2 p2] [E3 E]].
  destruct (Z.eq_dec i' i) as [->|]; [|apply (IH (i + 1) j l2 p2); try assumption; [lia|lia|replace (i + 1 + j * w) with (i + j * w + 1) by lia; exact E3|lia]].
  unfold rd in E1. destruct (inb (zlen bits) (s + (i + j * w) / 8) 1) eqn:I; [|discriminate]. apply Ok_inj in E1. subst b.
  rewrite Z.rem_mod_nonneg in E2 by nia. rewrite bit_land in E2 by lia.
  assert (HB : Z.testbit (nthZ bits (s + (i + j * w) / 8)) (7 - (i + j * w) mod 8) = img_bit bits (8 * s + j * w + i)).
  { unfold img_bit. replace ((8 * s + j * w + i) / 8) with (s + (i + j * w) / 8) by lia.
    replace ((8 * s + j * w + i) mod 8) with ((i + j * w) mod 8) by lia. reflexivity. }
  rewrite HB, B in E2. exists ps. exact E2.
Qed.
Lemma glyphRows_plots sh pos bits s w n : forall j l,
  0 <= w -> 0 <= j -> 0 <= s -> glyphRows n (getTransformMatrix c) sh pos bits w j (s + j * w / 8) = Ok l ->
  forall i' j', 0 <= i' < w -> j <= j' < j + Z.of_nat n -> img_bit bits (8 * s + j' * w + i') = true -> exists l', plot c sh pos i' j' = Ok l'.
Proof.
  induction n as [|n IH]; intros j l Hw0 Hj Hs E i' j' Hi' Hj' B; [lia|]. cbn [glyphRows] in E.
  apply bind_inv in E. destruct E as [[l1 p1] [E1 E]]. apply bind_inv in E. destruct E as [l2 [E2 E]].
  replace (s + j * w / 8) with (s + (0 + j * w) / 8) in E1 by reflexivity.
  pose proof (glyphRow_reads _ _ _ _ s w (Z.to_nat w) 0 j l1 p1 ltac:(lia) ltac:(lia) ltac:(lia) ltac:(lia) E1) as [-> _].
  destruct (Z.eq_dec j' j) as [->|].
  - apply (glyphRow_plots sh pos bits s w (Z.to_nat w) 0 j _ _ ltac:(lia) ltac:(lia) Hj Hs E1 i'); [lia|exact B].
  - replace (w + j * w) with ((j + 1) * w) in E2 by lia. apply (IH (j + 1) l2 Hw0 ltac:(lia) Hs E2); [lia|lia|exact B].
Qed.

Lemma drawCharAt_room fuel0 sg f pos s g :
  font_typed f -> getBitmap fuel0 sg f s = Ok g -> data_inside f g -> glyph_room c (bitmap f) g pos ->
  exists l, (forall fuel, getBitmap fuel sg f s = Ok g -> drawCharAt fuel sg c f pos s = Ok (l, cwidth g)) /\
    forall p, In (phys c p) l <-> glyph_pixels (bitmap f) g (fst pos + cox g, snd pos + coy g) p.
Proof.
  intros Hf E0 Hd [[Px Py] R]. destruct getShifts_room as [sh Hs]. cbn [fst snd] in Px, Py.
  apply (drawCharAt_plots fuel0 sg c f pos s g sh); try assumption. intros i j Hi Hj B.
  destruct (R (fst pos + cox g + i, snd pos + coy g + j)) as [R1 [R2 R3]]; [exists i, j; cbn [fst snd]; auto|].
  apply (plot_room sh (fst pos + cox g, snd pos + coy g) i j Hs); cbn [fst snd]; assumption.
Qed.
Lemma drawCharAt_inv fuel sg f pos s l adv : font_typed f -> drawCharAt fuel sg c f pos s = Ok (l, adv) ->
  exists g, getBitmap fuel sg f s = Ok g /\ adv = cwidth g /\ data_inside f g /\ glyph_room c (bitmap f) g pos.
Proof.
  intros Hf E. unfold drawCharAt in E. apply bind_inv in E. destruct E as [sh [Hs E]]. apply bind_inv in E. destruct E as [g [Eg E]].
  apply bind_inv in E. destruct E as [y [Ey E]]. apply bind_inv in E. destruct E as [x [Ex E]]. apply bind_inv in E. destruct E as [l0 [El E]].
  apply Ok_inj in E. injection E as <- <-. apply chk_inv in Ex. destruct Ex as [-> Ex]. apply chk_inv in Ey. destruct Ey as [-> Ey].
  destruct (getBitmap_typed _ _ _ _ _ Hf Eg) as [T1 [T2 [T3 _]]]. exists g. split; [exact Eg|]. split; [reflexivity|].
  replace (cstart g) with (cstart g + 0 * ew g / 8) in El by (rewrite Z.mul_0_l, Z.div_0_l; lia). split.
  - apply data_bits; [lia|lia|lia|]. intros k Hk. assert (Hw0 : 0 < ew g) by nia.
    pose proof (glyphRows_reads _ _ _ _ _ _ _ _ _ (proj1 T2) (Z.le_refl 0) (proj1 T1) El (k mod ew g) (k / ew g)) as R.
    replace (k mod ew g + k / ew g * ew g) with k in R by (pose proof (Z.div_mod k (ew g)); lia).
    apply R; [apply Z.mod_pos_bound; exact Hw0|]. split; [apply Z.div_pos; lia|]. rewrite Z2Nat.id by lia.
    rewrite Z.add_0_l. apply Z.div_lt_upper_bound; lia.
  - split; [split; assumption|]. intros q (i & j & Hi & Hj & -> & B). cbn [fst snd].
    destruct (glyphRows_plots sh _ _ _ _ _ 0 _ (proj1 T2) (Z.le_refl 0) (proj1 T1) El i j Hi ltac:(lia) B) as [l' El'].
    apply plot_inv in El'; [|exact Hs]. cbn [fst snd] in El'. exact El'.
Qed.
Lemma drawCharAt_outside fuel sg f pos s g : font_typed f -> getBitmap fuel sg f s = Ok g -> ~ data_inside f g ->
  drawCharAt fuel sg c f pos s = UB.
Proof.
  intros Hf Eg D. destruct (drawCharAt fuel sg c f pos s) as [[l adv]| |] eqn:E; [|reflexivity|]; exfalso.
  - apply drawCharAt_inv in E; [|exact Hf]. destruct E as (g' & Eg' & _ & D' & _). rewrite Eg in Eg'. apply Ok_inj in Eg'. subst g'. exact (D D').
  - destruct getShifts_room as [sh Hs]. unfold drawCharAt in E. rewrite Hs in E. cbn [bind] in E. rewrite Eg in E. cbn [bind] in E.
    unfold chk in E. do 2 (match type of E with context [if ?b then _ else _] => destruct b; [|discriminate] end; cbn [bind] in E).
    destruct (glyphRows _ _ _ _ _ _ _ _) eqn:R; try discriminate. revert R. apply glyphRows_not_fuel.
Qed.
Lemma drawStringAt_inv fuel sg f text : forall pos l, font_typed f -> is_int (fst pos) -> drawStringAt fuel sg c f pos text = Ok l ->
  exists gs, glyphs_of sg f fuel text gs /\ text_room c f gs pos.
Proof.
  induction text as [|b text IH]; intros pos l Hf Hp E.
  - exists []. split; [constructor|]. split; [cbn [advance]; rewrite Z.add_0_r; exact Hp|]. intros [|n] g H; discriminate.
  - cbn [drawStringAt] in E. apply bind_inv in E. destruct E as [[l1 adv] [E1 E]]. apply bind_inv in E. destruct E as [x [Ex E]].
    apply bind_inv in E. destruct E as [l2 [E2 _]]. apply chk_inv in Ex. destruct Ex as [-> Ex].
    apply drawCharAt_inv in E1; [|exact Hf]. destruct E1 as (g & Eg & -> & D & R).
    apply IH in E2; [|exact Hf|exact Ex]. destruct E2 as (gs & HG & RA & RG). cbn [fst snd] in RA, RG. exists (g :: gs).
    split; [constructor; assumption|]. split; [cbn [advance]; rewrite Z.add_assoc; exact RA|].
    intros [|n] g' H; cbn [nth_error firstn advance] in *.
    + injection H as <-. rewrite Z.add_0_r. split; [exact D|]. destruct pos; exact R.
    + rewrite Z.add_assoc. apply RG. exact H.
Qed.
Lemma drawStringAt_room sg f text gs pos N : font_typed f -> is_int (fst pos) -> (forall fuel, (N <= fuel)%nat -> glyphs_of sg f fuel text gs) ->
  text_room c f gs pos ->
  exists l, (forall fuel, (N <= fuel)%nat -> drawStringAt fuel sg c f pos text = Ok l) /\ forall p, In (phys c p) l <-> text_pixels (bitmap f) gs pos p.
Proof.
  intros Hf Hp HG [RA RG]. apply drawStringAt_each; try assumption. intros n b g Eb Eg. destruct (RG n g Eg) as [D R].
  pose proof (glyphs_of_nth _ _ _ _ _ n b g (HG N (Nat.le_refl N)) Eb Eg) as E0.
  destruct (drawCharAt_room N sg f _ _ g Hf E0 D R) as [l [E F]]. exists l. split; [|exact F].
  intros fuel Hfu. apply E. apply (glyphs_of_nth _ _ _ _ _ n b g (HG fuel Hfu) Eb Eg).
Qed.
End Room.
Lemma shown_unique sg f text : forall gs gs', shown_as sg f text gs -> shown_as sg f text gs' -> gs' = gs.
Proof.
  induction text as [|b text IH]; intros gs gs' H1 H2; inversion H1; inversion H2; subst; [reflexivity|].
  f_equal; [eapply completes_unique; eassumption|apply IH; assumption].
Qed.
Lemma reach_glyph c data g x y : in_reach c (x, y) 0 -> 0 <= ew g < 256 -> 0 <= eh g < 256 -> -128 <= cox g < 128 -> -128 <= coy g < 128 -> glyph_room c data g (x, y).
Proof.
  unfold in_reach, glyph_room. cbn [fst snd]. intros (Hw & Hh & Hx & Hy) E1 E2 O1 O2. split.
  - unfold is_point, is_int, INT_MIN, INT_MAX. cbn [fst snd]. lia.
  - intros q (i & j & Hi & Hj & -> & _). rewrite phys_val. unfold mirrored, is_point, is_int, INT_MIN, INT_MAX. destruct (rot c); cbn [fst snd]; lia.
Qed.
