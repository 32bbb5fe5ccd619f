(** Lines with a point half way between two pixels look different on a canvas turned by half a turn. *)
From Verif Require Import Base S_Graphics M_Geometry M_FrameBuffer M_Canvas S_Paint L_Geometry L_FrameBuffer L_Canvas L_Paint.

(** what is painted is determined by the calls alone *)
Lemma paints_agree c op (S T : pt -> Prop) f p : paints c op S -> paints c op T ->
  fb_wf f -> fd f = 1 -> canvas_of c f -> selectedColor f = 1 -> fpixel f (phys c p) = 0 -> in_grid (getSize c) p ->
  (T p -> ~ ~ S p) /\ (~ T p -> ~ S p).
Proof.
  intros [l [Hl H]] [l' [Hl' H']] Hwf H1 Hc Hs H0 Hp. rewrite (completes_unique op l' l Hl' Hl) in H'.
  destruct (H f Hwf ltac:(lia) Hc ltac:(lia)) as [f1 [E [_ [_ [_ [_ [_ [_ F]]]]]]]].
  destruct (H' f Hwf ltac:(lia) Hc ltac:(lia)) as [f2 [E' [_ [_ [_ [_ [_ [_ F']]]]]]]].
  rewrite E in E'. apply Ok_inj in E'. subst f2. destruct (F p Hp) as [A B]. destruct (F' p Hp) as [A' B'].
  rewrite H1, Hs, H0 in *. change (colour 1 1) with 1 in *. split.
  - intros X Y. specialize (A' X). specialize (B Y). lia.
  - intros X Y. specialize (B' X). specialize (A Y). lia.
Qed.

(** an empty picture of [w] x [h] bits *)
Definition blank (w h : Z) : fb := mkFb w h 1 (repeat 0 (Z.to_nat (bufferSize w h 1))) 1.
Lemma blank_wf w h : accepted w h 1 = true -> fb_wf (blank w h).
Proof.
  intros HA. split; [exact HA|]. cbn [blank fw fh fd buf]. split.
  - unfold zlen. rewrite repeat_length, Z2Nat.id; [reflexivity|].
    unfold bufferSize, accepted in *. destruct (Z.leb_spec 0 w); [|discriminate]. destruct (Z.leb_spec 0 h); [|discriminate].
    unfold effectiveWidth. assert (0 <= Z.quot (w * 1) 8) by (apply Z.quot_pos; lia). apply Z.quot_pos; nia.
  - apply Forall_forall. intros x Hx. apply repeat_spec in Hx. subst x. unfold is_byte. lia.
Qed.

Lemma blank_accepted w h : 0 < w -> 0 < h -> w mod 8 = 0 -> w * h <= INT_MAX -> accepted w h 1 = true /\ effectiveWidth w 1 = w.
Proof.
  intros Hw Hh H8 HA. assert (E : effectiveWidth w 1 = w).
  { unfold effectiveWidth. rewrite Z.mul_1_r, Z.quot_div_nonneg by lia. Z.div_mod_to_equations. lia. }
  split; [|exact E]. assert (w <= INT_MAX) by nia. assert (h <= INT_MAX) by nia. unfold accepted. rewrite E. change (pow_minus1 1) with 1. rewrite !Z.mul_1_r.
  rewrite Z.rem_mod_nonneg, H8 by lia. change (valid_depth 1) with true. unfold in_int, INT_MIN in *.
  replace (0 <=? w) with true by lia. replace (0 <=? h) with true by lia. cbn [andb].
  repeat match goal with |- context [?x <=? ?y] => replace (x <=? y) with true by nia end. reflexivity.
Qed.
Lemma blank_pixel w h q : fpixel (blank w h) q = 0.
Proof.
  unfold fpixel, pixel. cbn [fd blank]. change (Z.to_nat 1) with 1%nat. cbn [bits_val]. unfold img_bit, getImage, nthZ. cbn [buf blank]. rewrite nth_repeat, Z.bits_0. reflexivity.
Qed.

(** ** the pixel in the middle *)
Definition mirror (m q : Z * Z) : Z * Z := (fst m - fst q, snd m - snd q).
Lemma nearest_tie s e i k m :
  0 < i < fst e - fst s -> 0 <= k -> 2 * (i * Z.abs (snd e - snd s)) = (fst e - fst s) * (2 * k + 1) ->
  let p := (fst s + i, snd s + Z.sgn (snd e - snd s) * k) in
  nearest s e p /\ ~ nearest (mirror m e) (mirror m s) (mirror m p).
Proof.
  intros Hi Hk HT p. set (d := fst e - fst s) in *. set (h := Z.abs (snd e - snd s)) in *.
  split.
  - split; [cbn [p fst]; lia|]. exists k. split; [|reflexivity]. cbn [p fst]. replace (fst s + i - fst s) with i by lia. fold h d.
    split; [exact Hk|]. split; [lia|]. intros _. rewrite HT. nia.
  - intros (_ & k' & R & E). cbn [p mirror fst snd] in R, E.
    replace (fst m - (fst s + i) - (fst m - fst e)) with (d - i) in R by (unfold d; lia).
    replace (fst m - fst s - (fst m - fst e)) with d in R by (unfold d; lia).
    replace (snd m - snd s - (snd m - snd e)) with (snd e - snd s) in R, E by lia. fold h in R.
    assert (K : k' = h - k - 1).
    { apply (rounded_unique ((d - i) * h) d); [apply Z.mul_nonneg_nonneg; unfold h; lia|lia|exact R|].
      assert (H : 2 * ((d - i) * h) = d * (2 * (h - k - 1) + 1)) by (transitivity (2 * (d * h) - 2 * (i * h)); [ring|rewrite HT; ring]).
      assert (Q : 0 <= h - k - 1).
      { assert (0 < d * (2 * (h - k - 1) + 1)) by (rewrite <- H; assert (0 < h) by (destruct (Z.eq_dec h 0) as [Z0|]; [rewrite Z0 in HT; nia|unfold h in *; lia]); nia). nia. }
      split; [exact Q|]. split; [lia|]. intros _. rewrite H. nia. }
    subst k'. assert (D : snd e - snd s = Z.sgn (snd e - snd s) * h) by (unfold h; rewrite Z.mul_comm; symmetry; apply Z.abs_sgn).
    assert (N : Z.sgn (snd e - snd s) <> 0).
    { intros Z0. apply Z.sgn_null_iff in Z0. assert (h = 0) by (unfold h; lia). nia. }
    nia.
Qed.
Lemma line_pixel_sym a b p : line_pixel a b p <-> line_pixel b a p.
Proof.
  unfold line_pixel. replace (snd a - snd b) with (- (snd b - snd a)) by lia. replace (fst a - fst b) with (- (fst b - fst a)) by lia.
  rewrite !Z.abs_opp. split; intros (s & e & O & H); exists s, e; (split; [tauto|exact H]).
Qed.
Lemma flat_tie a b m i k : fst a <= fst b -> Z.abs (snd b - snd a) <= fst b - fst a ->
  0 < i < fst b - fst a -> 2 * (i * (snd b - snd a)) = (fst b - fst a) * (2 * k + 1) ->
  exists p, nearest a b p /\ ~ nearest (mirror m b) (mirror m a) (mirror m p).
Proof.
  intros Hab Hd Hi HT.
  destruct (Z.lt_trichotomy (snd b - snd a) 0) as [H|[H|H]]; [|exfalso; rewrite H, !Z.mul_0_r in HT; symmetry in HT; apply Z.mul_eq_0 in HT; lia|].
  - eexists. apply (nearest_tie a b i (- k - 1) m Hi); [nia|]. rewrite Z.abs_neq by lia. lia.
  - eexists. apply (nearest_tie a b i k m Hi); [nia|]. rewrite Z.abs_eq by lia. exact HT.
Qed.
Lemma nearest_line a b p : fst a < fst b -> Z.abs (snd b - snd a) <= fst b - fst a -> (line_pixel a b p <-> nearest a b p).
Proof.
  intros Hab Hd. unfold line_pixel. split.
  - intros (s & e & O & [(_ & Hse & H)|(H & _)]); [|lia]. destruct O as [O|O]; injection O as -> ->; [exact H|lia].
  - intros H. exists a, b. split; [left; reflexivity|]. left. split; [lia|]. split; [lia|exact H].
Qed.
Lemma steep_line a b p : snd a < snd b -> Z.abs (fst b - fst a) < snd b - snd a -> (line_pixel a b p <-> nearest (flip a) (flip b) (flip p)).
Proof.
  intros Hab Hd. unfold line_pixel. split.
  - intros (s & e & O & [(H & _)|(_ & Hse & H)]); [lia|]. destruct O as [O|O]; injection O as -> ->; [exact H|lia].
  - intros H. exists a, b. split; [left; reflexivity|]. right. split; [lia|]. split; [lia|exact H].
Qed.
Lemma line_tie_ordered a b m i k : let L := Z.max (Z.abs (fst b - fst a)) (Z.abs (snd b - snd a)) in
  fst a < fst b /\ Z.abs (snd b - snd a) <= fst b - fst a \/ snd a < snd b /\ Z.abs (fst b - fst a) < snd b - snd a ->
  0 < i < L -> 2 * (i * (fst b - fst a)) = L * (2 * k + 1) \/ 2 * (i * (snd b - snd a)) = L * (2 * k + 1) ->
  exists p, line_pixel a b p /\ ~ line_pixel (mirror m a) (mirror m b) (mirror m p).
Proof.
  intros L [[H1 H2]|[H1 H2]] Hi HT.
  - assert (E : L = fst b - fst a) by (unfold L; lia). rewrite E in *. destruct HT as [HT|HT]; [exfalso; assert (2 * i = 2 * k + 1) by nia; lia|].
    destruct (flat_tie a b m i k ltac:(lia) H2 Hi HT) as (p & P & Q). exists p. split; [apply nearest_line; assumption|].
    rewrite line_pixel_sym, nearest_line; [exact Q| |]; unfold mirror; cbn [fst snd]; lia.
  - assert (E : L = snd b - snd a) by (unfold L; lia). rewrite E in *. destruct HT as [HT|HT]; [|exfalso; assert (2 * i = 2 * k + 1) by nia; lia].
    destruct (flat_tie (flip a) (flip b) (flip m) i k) as (p & P & Q); unfold flip; cbn [fst snd]; try lia. exists (flip p).
    assert (F : forall q, flip (flip q) = q) by (intros [? ?]; reflexivity).
    split; [apply steep_line; [lia|lia|rewrite F; exact P]|]. rewrite line_pixel_sym, steep_line; [|unfold mirror; cbn [fst snd]; lia..].
    intros X. apply Q. replace (mirror (flip m) p) with (flip (mirror m (flip p))) by reflexivity. exact X.
Qed.
Lemma line_tie a b m i k : let L := Z.max (Z.abs (fst b - fst a)) (Z.abs (snd b - snd a)) in
  0 < i < L -> 2 * (i * (fst b - fst a)) = L * (2 * k + 1) \/ 2 * (i * (snd b - snd a)) = L * (2 * k + 1) ->
  exists p, line_pixel a b p /\ ~ line_pixel (mirror m a) (mirror m b) (mirror m p).
Proof.
  intros L Hi HT.
  assert (O : (fst a < fst b /\ Z.abs (snd b - snd a) <= fst b - fst a \/ snd a < snd b /\ Z.abs (fst b - fst a) < snd b - snd a) \/
              (fst b < fst a /\ Z.abs (snd a - snd b) <= fst a - fst b \/ snd b < snd a /\ Z.abs (fst a - fst b) < snd a - snd b)) by lia.
  destruct O as [O|O]; [exact (line_tie_ordered a b m i k O Hi HT)|].
  assert (EL : Z.max (Z.abs (fst a - fst b)) (Z.abs (snd a - snd b)) = L) by (unfold L; lia).
  destruct (line_tie_ordered b a m i (- k - 1) O) as (p & P & Q).
  - rewrite EL. exact Hi.
  - rewrite EL. lia.
  - exists p. split; [apply line_pixel_sym; exact P|]. rewrite line_pixel_sym. exact Q.
Qed.
Lemma nearest_box s e p : nearest s e p -> Z.min (snd s) (snd e) <= snd p <= Z.max (snd s) (snd e).
Proof.
  intros (Hp & k & (K0 & _ & K) & E).
  assert (B : k <= Z.abs (snd e - snd s)).
  { destruct (Z_le_gt_dec k 0) as [H|H]; [lia|]. specialize (K ltac:(lia)).
    set (n := Z.abs (snd e - snd s)) in *. assert (0 <= n) by (unfold n; lia).
    assert (2 * ((fst p - fst s) * n) <= (fst e - fst s) * (2 * n)) by nia. nia. }
  destruct (Z.sgn_spec (snd e - snd s)) as [[H Q]|[[H Q]|[H Q]]]; rewrite Q in E; lia.
Qed.
Lemma line_pixel_box g a b p : in_grid g a -> in_grid g b -> line_pixel a b p -> in_grid g p.
Proof.
  unfold in_grid, in_box. cbn [fst snd]. intros Ha Hb (s & e & O & H).
  assert (in_grid g s /\ in_grid g e) as [Hs He].
  { unfold in_grid, in_box. cbn [fst snd]. destruct O as [O|O]; injection O as -> ->; lia. }
  unfold in_grid, in_box in Hs, He. cbn [fst snd] in Hs, He. destruct H as [(_ & _ & H)|(_ & _ & H)].
  - pose proof (nearest_box _ _ _ H). destruct H as [H _]. lia.
  - pose proof (nearest_box _ _ _ H) as B. destruct H as [H _]. unfold flip in H, B. cbn [fst snd] in H, B. lia.
Qed.
Lemma line_turned w h a b op0 op1 S i k : let L := Z.max (Z.abs (fst b - fst a)) (Z.abs (snd b - snd a)) in
  0 < w -> 0 < h -> w mod 8 = 0 -> w * h <= INT_MAX -> in_grid (w, h) a -> in_grid (w, h) b ->
  let c r := mkCanvas w h r in
  paints (c R0) op0 S -> paints (c R180) op1 S ->
  paints (c R0) op0 (fun p => line_pixel (phys (c R0) a) (phys (c R0) b) (phys (c R0) p)) ->
  paints (c R180) op1 (fun p => line_pixel (phys (c R180) a) (phys (c R180) b) (phys (c R180) p)) ->
  0 < i < L -> 2 * (i * (fst b - fst a)) = L * (2 * k + 1) \/ 2 * (i * (snd b - snd a)) = L * (2 * k + 1) -> False.
Proof.
  intros L Hw Hh H8 Har Ha Hb c P0 P1 Q0 Q1 Hi HT.
  destruct (blank_accepted w h Hw Hh H8 Har) as [HA HE]. destruct (line_tie a b (w - 1, h - 1) i k Hi HT) as (p & X & Y).
  pose proof (line_pixel_box _ _ _ _ Ha Hb X) as Hp.
  assert (CO : forall r, canvas_of (c r) (blank w h)).
  { intros r. split; [|reflexivity]. cbn [c cw blank]. unfold getWidth. cbn [fw fd]. symmetry. exact HE. }
  assert (F0 : forall q, fpixel (blank w h) q = 0) by (intros q; apply blank_pixel).
  destruct (paints_agree (c R0) op0 S _ (blank w h) p P0 Q0 (blank_wf w h HA) eq_refl (CO R0) eq_refl (F0 _) Hp) as [A _].
  destruct (paints_agree (c R180) op1 S _ (blank w h) p P1 Q1 (blank_wf w h HA) eq_refl (CO R180) eq_refl (F0 _) Hp) as [_ B].
  apply A; [exact X|]. apply B. exact Y.
Qed.
