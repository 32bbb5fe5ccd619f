(** Lemmas about the canvas model: straight shapes. *)
From Coq Require Import FinFun.
From Verif Require Import Base S_Graphics M_Geometry M_FrameBuffer M_Canvas S_Paint S_Ranges L_Geometry L_FrameBuffer.

Fixpoint zrange (n : nat) (a : Z) : list Z :=
  match n with O => [] | S n => a :: zrange n (a + 1) end.
Lemma In_zrange n : forall a x, In x (zrange n a) <-> a <= x < a + Z.of_nat n.
Proof.
  induction n as [|n IH]; intros a x; cbn [zrange In]; [lia|]. rewrite IH. lia.
Qed.
Lemma zlen_zrange n a : zlen (zrange n a) = Z.of_nat n.
Proof. revert a. induction n as [|n IH]; intros a; [reflexivity|]. cbn [zrange]. rewrite zlen_cons, IH. lia. Qed.
Lemma nth_zrange n : forall a i, (i < n)%nat -> nth_error (zrange n a) i = Some (a + Z.of_nat i).
Proof.
  induction n as [|n IH]; intros a i Hi; [lia|]. destruct i as [|i]; cbn [zrange nth_error].
  - f_equal. lia.
  - rewrite IH by lia. f_equal. lia.
Qed.
Lemma NoDup_zrange n a : NoDup (zrange n a).
Proof.
  revert a. induction n as [|n IH]; intros a; cbn [zrange]; constructor; [|apply IH].
  rewrite In_zrange. lia.
Qed.

Lemma hline_ok n : forall x y,
  is_int x -> x + Z.of_nat n <= INT_MAX -> hline n (x, y) = Ok (map (fun i => (i, y)) (zrange n x)).
Proof.
  induction n as [|n IH]; intros x y Hx Hn; cbn [hline fst snd zrange map]; [reflexivity|].
  unfold is_int, INT_MIN, INT_MAX in *. ck. rewrite IH by (unfold is_int, INT_MIN, INT_MAX; lia). reflexivity.
Qed.
Lemma vline_ok n : forall x y,
  is_int y -> y + Z.of_nat n <= INT_MAX -> vline n (x, y) = Ok (map (fun i => (x, i)) (zrange n y)).
Proof.
  induction n as [|n IH]; intros x y Hx Hn; cbn [vline fst snd zrange map]; [reflexivity|].
  unfold is_int, INT_MIN, INT_MAX in *. ck. rewrite IH by (unfold is_int, INT_MIN, INT_MAX; lia). reflexivity.
Qed.
Definition hset (p : pt) (w : Z) : list pt := map (fun i => (i, snd p)) (zrange (Z.to_nat w) (fst p)).
Definition vset (p : pt) (h : Z) : list pt := map (fun i => (fst p, i)) (zrange (Z.to_nat h) (snd p)).
Lemma dhl_ok p w :
  is_int (fst p) -> fst p + Z.max 0 w <= INT_MAX -> drawHorizontalLine p w = Ok (hset p w).
Proof. intros. destruct p as [x y]. unfold drawHorizontalLine. apply hline_ok; [assumption|cbn [fst] in *; lia]. Qed.
Lemma dvl_ok p h :
  is_int (snd p) -> snd p + Z.max 0 h <= INT_MAX -> drawVerticalLine p h = Ok (vset p h).
Proof. intros. destruct p as [x y]. unfold drawVerticalLine. apply vline_ok; [assumption|cbn [snd] in *; lia]. Qed.
Lemma In_hset p w q : In q (hset p w) <-> snd q = snd p /\ fst p <= fst q < fst p + w.
Proof.
  unfold hset. rewrite in_map_iff. split.
  - intros [i [<- H]]. apply In_zrange in H. cbn [fst snd]. lia.
  - intros [H1 H2]. exists (fst q). split; [rewrite <- H1; destruct q; reflexivity|]. apply In_zrange. lia.
Qed.
Lemma In_vset p h q : In q (vset p h) <-> fst q = fst p /\ snd p <= snd q < snd p + h.
Proof.
  unfold vset. rewrite in_map_iff. split.
  - intros [i [<- H]]. apply In_zrange in H. cbn [fst snd]. lia.
  - intros [H1 H2]. exists (snd q). split; [rewrite <- H1; destruct q; reflexivity|]. apply In_zrange. lia.
Qed.
Lemma NoDup_hset p w : NoDup (hset p w).
Proof.
  unfold hset. apply Injective_map_NoDup; [|apply NoDup_zrange]. intros a b H. congruence.
Qed.

(** ** Effect on a frame buffer *)
Lemma visible_iff c p : visible c p = true <-> in_grid (cw c, ch c) p.
Proof. unfold visible, in_grid, in_box. cbn [fst snd]. rewrite !andb_true_iff. lia. Qed.

Lemma pt_dec (p q : pt) : {p = q} + {p <> q}.
Proof. decide equality; apply Z.eq_dec. Qed.

Lemma draw_plots c f l :
  fb_wf f -> fd f <> 2 -> canvas_of c f -> 0 <= selectedColor f ->
  exists f', draw c f l = Ok f' /\ fb_wf f' /\ fw f' = fw f /\ fh f' = fh f /\ fd f' = fd f /\
    selectedColor f' = selectedColor f /\
    forall q, in_grid (cw c, ch c) q ->
      (In q l -> fpixel f' q = colour (fd f) (selectedColor f)) /\
      (~ In q l -> fpixel f' q = fpixel f q).
Proof.
  revert f. induction l as [|p l IH]; intros f Hwf H2 Hc Hs; cbn [draw].
  - exists f. split; [reflexivity|]. repeat (split; [try assumption; reflexivity|]). intros q Hq. split; [intros []|reflexivity].
  - unfold setIfVisible. destruct (visible c p) eqn:V.
    + pose proof V as V1. apply visible_iff in V1. destruct Hc as [C1 C2]. unfold in_grid, in_box in V1. cbn [fst snd] in V1.
      unfold drawPixel2. destruct (draw_ok f (fst p) (snd p) (selectedColor f) Hwf H2) as [m' [E S]]; [lia|unfold getHeight in *; lia|].
      rewrite E. cbn [bind].
      pose proof (set_buf_wf f m' Hwf (proj1 S) (proj1 (proj2 S))) as Hwf1.
      destruct (IH (set_buf f m') Hwf1 H2 (conj C1 C2) Hs) as [f' [E' [W' [A1 [A2 [A3 [A4 A5]]]]]]].
      exists f'. split; [exact E'|]. split; [exact W'|]. repeat (split; [assumption|]).
      assert (Hp : forall q, in_grid (cw c, ch c) q -> fpixel (set_buf f m') q = if pt_dec q p then colour (fd f) (selectedColor f) else fpixel f q).
      { intros q Hq. unfold in_grid, in_box in Hq. cbn [fst snd] in Hq. unfold fpixel, getImage. cbn [set_buf buf fd].
        change (getWidth (set_buf f m')) with (getWidth f).
        pose proof (accepted_facts _ _ _ (proj1 Hwf)) as [_ [_ [Hd _]]].
        rewrite (stored_pixel (fd f) (snd p * getWidth f + fst p) (selectedColor f) (buf f) m'); [|lia|exact Hs|nia|exact S].
        destruct (pt_dec q p) as [->|Hn]; [rewrite Z.eqb_refl; reflexivity|].
        destruct (Z.eqb_spec (snd q * getWidth f + fst q) (snd p * getWidth f + fst p)) as [He|_]; [|reflexivity].
        exfalso. apply Hn. apply pix_split in He; [|lia|lia]. destruct He as [E1 E2].
        destruct p, q. cbn [fst snd] in *. congruence. }
      intros q Hq. destruct (A5 q Hq) as [B1 B2]. cbn [set_buf fd selectedColor] in B1. split.
      * intros [->|Hi]; [|apply B1; exact Hi].
        destruct (in_dec pt_dec q l) as [Hi|Hi]; [apply B1; exact Hi|]. rewrite B2 by exact Hi. rewrite Hp by exact Hq.
        destruct (pt_dec q q); [reflexivity|contradiction].
      * intros Hn. rewrite B2 by (intros Hi; apply Hn; right; exact Hi). rewrite Hp by exact Hq.
        destruct (pt_dec q p) as [->|_]; [|reflexivity]. exfalso. apply Hn. left. reflexivity.
    + cbn [bind]. destruct (IH f Hwf H2 Hc Hs) as [f' [E' [W' [A1 [A2 [A3 [A4 A5]]]]]]].
      exists f'. split; [exact E'|]. split; [exact W'|]. repeat (split; [assumption|]).
      intros q Hq. destruct (A5 q Hq) as [B1 B2]. split.
      * intros [->|Hi]; [|apply B1; exact Hi]. apply visible_iff in Hq. congruence.
      * intros Hn. apply B2. intros Hi. apply Hn. right. exact Hi.
Qed.

(** ** Lines *)
(** the number of short-axis steps taken after [i] long-axis steps *)
Definition K (L S i : Z) : Z := (i * S + (L - 1 - L / 2)) / L.

Lemma K_unique L S i k : 1 <= L -> 0 <= L / 2 - i * S + k * L < L -> k = K L S i.
Proof.
  intros HL H. unfold K. apply Z.div_unique with (r := L - 1 - (L / 2 - i * S + k * L)); [lia|]. lia.
Qed.
Lemma K_bounds L S i : 1 <= L -> 0 <= L / 2 - i * S + K L S i * L < L.
Proof.
  intros HL. unfold K. pose proof (Z.div_mod (i * S + (L - 1 - L / 2)) L ltac:(lia)).
  pose proof (Z.mod_pos_bound (i * S + (L - 1 - L / 2)) L ltac:(lia)). lia.
Qed.
Lemma half_bounds L : 0 <= L -> 0 <= L - 2 * (L / 2) <= 1.
Proof. intros. pose proof (Z.div_mod L 2 ltac:(lia)). pose proof (Z.mod_pos_bound L 2 ltac:(lia)). lia. Qed.
Lemma K_half L S i : 1 <= L -> 2 * Z.abs (L * K L S i - i * S) <= L.
Proof. intros HL. pose proof (K_bounds L S i HL). pose proof (half_bounds L ltac:(lia)). lia. Qed.
Lemma K_0 L S : 1 <= L -> K L S 0 = 0.
Proof.
  intros HL. symmetry. apply K_unique; [lia|]. pose proof (half_bounds L ltac:(lia)). lia.
Qed.
Lemma K_end L S : 1 <= L -> K L S L = S.
Proof.
  intros HL. symmetry. apply K_unique; [lia|]. pose proof (half_bounds L ltac:(lia)). lia.
Qed.
Lemma K_step L S i : 1 <= L -> 0 <= S <= L -> K L S (i + 1) = K L S i \/ K L S (i + 1) = K L S i + 1.
Proof.
  intros HL HS. pose proof (K_bounds L S i HL) as B.
  destruct (Z_lt_dec (L / 2 - i * S + K L S i * L) S) as [H|H].
  - right. symmetry. apply K_unique; lia.
  - left. symmetry. apply K_unique; lia.
Qed.
Lemma K_mono L S i n : 1 <= L -> 0 <= S <= L -> K L S i <= K L S (i + Z.of_nat n) <= K L S i + Z.of_nat n.
Proof.
  intros HL HS. induction n as [|n IH]; [rewrite Z.add_0_r; lia|].
  replace (i + Z.of_nat (Datatypes.S n)) with (i + Z.of_nat n + 1) by lia. destruct (K_step L S (i + Z.of_nat n) HL HS); lia.
Qed.
Lemma K_range L S i : 1 <= L -> 0 <= S <= L -> 0 <= i <= L -> 0 <= K L S i <= S.
Proof.
  intros HL HS Hi. pose proof (K_mono L S 0 (Z.to_nat i) HL HS) as A. pose proof (K_mono L S i (Z.to_nat (L - i)) HL HS) as B.
  rewrite Z2Nat.id in * by lia. replace (i + (L - i)) with L in B by lia. rewrite K_0, ?K_end in * by lia.
  rewrite Z.add_0_l in A. lia.
Qed.

Definition linePlot (moveY : bool) (lng shrt : Z) : pt := if moveY then (shrt, lng) else (lng, shrt).
Lemma lineLoop_ok moveY L S sign l0 s0 n : forall fuel i,
  1 <= L <= INT_MAX -> 0 <= S <= L -> (sign = 1 \/ sign = -1) ->
  INT_MIN <= l0 -> l0 + L < INT_MAX -> is_int s0 -> is_int (s0 + sign * S) ->
  (L < 2 * S -> is_int (s0 + sign * S + sign)) ->
  0 <= i -> i + Z.of_nat n = L + 1 -> (n < fuel)%nat ->
  lineLoop fuel moveY L S sign (l0 + L) (l0 + i) (s0 + sign * K L S i) (L / 2 - i * S + K L S i * L) =
    Ok (map (fun j => linePlot moveY (l0 + j) (s0 + sign * K L S j)) (zrange n i)).
Proof.
  unfold is_int, INT_MIN, INT_MAX. induction n as [|n IH]; intros fuel i HL HS Hsg B1 B2 B3 B4 B5 Hi Hn Hf;
    (destruct fuel as [|fuel]; [lia|]); cbn [lineLoop zrange map].
  - replace (l0 + i <=? l0 + L) with false by lia. reflexivity.
  - replace (l0 + i <=? l0 + L) with true by lia.
    pose proof (K_bounds L S i ltac:(lia)) as Kb. pose proof (K_range L S i ltac:(lia) HS ltac:(lia)) as Kr.
    pose proof (half_bounds L ltac:(lia)) as Hh.
    assert (Ke : i = L -> K L S i = S) by (intros ->; apply K_end; lia).
    assert (Ks : i < L -> 0 <= K L S (i + 1) <= S) by (intros; apply K_range; lia).
    set (err := L / 2 - i * S + K L S i * L) in *.
    rewrite chk_ok by (unfold INT_MIN, INT_MAX; lia). cbn [bind].
    destruct (Z.ltb_spec (err - S) 0) as [H|H].
    + assert (HK : K L S (i + 1) = K L S i + 1) by (symmetry; apply K_unique; unfold err in *; lia).
      assert (s0 + sign * K L S i + sign = s0 + sign * K L S (i + 1)) as E1 by (rewrite HK; ring).
      assert (err - S + L = L / 2 - (i + 1) * S + K L S (i + 1) * L) as E2 by (rewrite HK; unfold err; ring).
      assert (B6 : i = L -> -2147483648 <= s0 + sign * S + sign <= 2147483647).
      { intros ->. apply B5. unfold err in H. rewrite Ke in H by reflexivity. lia. }
      rewrite (chk_ok (s0 + sign * K L S i + sign)).
      2: { unfold INT_MIN, INT_MAX. destruct (Z.eq_dec i L) as [Ei|Ei]; [rewrite (Ke Ei); apply (B6 Ei)|].
           specialize (Ks ltac:(lia)). rewrite E1. destruct Hsg; subst sign; lia. }
      cbn [bind].
      rewrite chk_ok by (unfold INT_MIN, INT_MAX; lia). cbn [bind].
      rewrite chk_ok by (unfold INT_MIN, INT_MAX; lia). cbn [bind].
      rewrite E1, E2. replace (l0 + i + 1) with (l0 + (i + 1)) by ring. rewrite IH by (try assumption; lia). reflexivity.
    + assert (HK : K L S (i + 1) = K L S i) by (symmetry; apply K_unique; unfold err in *; lia).
      assert (err - S = L / 2 - (i + 1) * S + K L S (i + 1) * L) as E2 by (rewrite HK; unfold err; ring).
      cbn [bind].
      rewrite chk_ok by (unfold INT_MIN, INT_MAX; lia). cbn [bind].
      rewrite E2. rewrite <- HK. replace (l0 + i + 1) with (l0 + (i + 1)) by ring. rewrite IH by (try assumption; lia). reflexivity.
Qed.
Lemma lineLoop_inv moveY L S sign l0 s0 : forall fuel i l,
  1 <= L -> 0 <= S <= L -> 0 <= i <= L ->
  lineLoop fuel moveY L S sign (l0 + L) (l0 + i) (s0 + sign * K L S i) (L / 2 - i * S + K L S i * L) = Ok l ->
  l0 + L < INT_MAX /\ (L < 2 * S -> is_int (s0 + sign * S + sign)).
Proof.
  induction fuel as [|fuel IH]; intros i l HL HS Hi; cbn [lineLoop]; [discriminate|].
  replace (l0 + i <=? l0 + L) with true by lia. intros H.
  pose proof (K_bounds L S i ltac:(lia)) as Kb. pose proof (half_bounds L ltac:(lia)) as Hh.
  set (err := L / 2 - i * S + K L S i * L) in *.
  apply bind_inv in H. destruct H as (e1 & C1 & H). apply chk_inv in C1. destruct C1 as [-> _].
  apply bind_inv in H. destruct H as ([s2 e2] & C2 & H).
  apply bind_inv in H. destruct H as (l2 & C3 & H). apply chk_inv in C3. destruct C3 as [-> C3].
  apply bind_inv in H. destruct H as (l' & H & _).
  destruct (Z.eq_dec i L) as [Ei|Ei].
  - split; [lia|]. intros HS2. subst i. unfold err in C2, Kb. rewrite K_end in C2, Kb by lia.
    replace (L / 2 - L * S + S * L - S <? 0) with true in C2 by lia.
    apply bind_inv in C2. destruct C2 as (s3 & C2 & _). apply chk_inv in C2. apply C2.
  - apply (IH (i + 1) l'); try lia. rewrite <- H. clear IH H. replace (l0 + i + 1) with (l0 + (i + 1)) by ring.
    destruct (Z.ltb_spec (err - S) 0) as [H|H].
    + assert (HK : K L S (i + 1) = K L S i + 1) by (symmetry; apply K_unique; unfold err in *; lia).
      apply bind_inv in C2. destruct C2 as (s3 & C2 & C4). apply chk_inv in C2. destruct C2 as [-> _].
      apply bind_inv in C4. destruct C4 as (e3 & C4 & C5). apply chk_inv in C4. destruct C4 as [-> _]. apply Ok_inj in C5. inversion C5. subst s2 e2.
      rewrite HK. f_equal; unfold err; ring.
    + assert (HK : K L S (i + 1) = K L S i) by (symmetry; apply K_unique; unfold err in *; lia).
      apply Ok_inj in C2. inversion C2. subst s2 e2. rewrite HK. f_equal; unfold err; ring.
Qed.

Lemma map_zrange_nth {A} (g : Z -> A) n a i :
  0 <= i < Z.of_nat n -> nth_error (map g (zrange n a)) (Z.to_nat i) = Some (g (a + i)).
Proof.
  intros Hi. rewrite nth_error_map, nth_zrange by lia. cbn [option_map]. do 2 f_equal. lia.
Qed.

(** the closed form of a drawn line between the frame-buffer points [s] and [e] *)
Definition lineSet (s0 e0 : pt) : list pt :=
  let diffX := Z.abs (fst e0 - fst s0) in
  let diffY := Z.abs (snd e0 - snd s0) in
  let moveY := diffY >? diffX in
  let lo (p : pt) := if moveY then snd p else fst p in
  let sh (p : pt) := if moveY then fst p else snd p in
  let s := if lo s0 >? lo e0 then e0 else s0 in
  let e := if lo s0 >? lo e0 then s0 else e0 in
  let L := lo e - lo s in
  let S := Z.abs (sh e - sh s) in
  let sign := if sh s <? sh e then 1 else -1 in
  map (fun j => linePlot moveY (lo s + j) (sh s + sign * K (Z.max L 1) S j)) (zrange (Z.to_nat (L + 1)) 0).

Lemma K_zero L i : 1 <= L -> K L 0 i = 0.
Proof. intros HL. symmetry. apply K_unique; [lia|]. pose proof (half_bounds L ltac:(lia)). lia. Qed.

Definition wide (p : pt) : Prop :=
  -536870912 <= fst p <= 536870912 /\ -536870912 <= snd p <= 536870912.

Lemma drawLine_room c a b :
  transformPoint c a = Ok (phys c a) -> transformPoint c b = Ok (phys c b) -> is_point (phys c a) -> is_point (phys c b) ->
  line_room (phys c a) (phys c b) ->
  completes (fun fuel => drawLine fuel c a b) (lineSet (phys c a) (phys c b)).
Proof.
  intros Ha Hb Ws We Hroom. exists (Z.to_nat 2147483649). intros fuel Hf. unfold drawLine.
  rewrite Ha, Hb. cbn [bind].
  set (s := phys c a) in *. set (e := phys c b) in *. clearbody s e. clear Ha Hb.
  destruct s as [xs ys], e as [xe ye]. unfold is_point, is_int, INT_MIN, INT_MAX in Ws, We. cbn [fst snd] in *.
  unfold line_room in Hroom. cbv zeta in Hroom. cbn [fst snd] in Hroom. destruct Hroom as (RX & RY & RS & RE).
  assert (REX : Z.abs (ye - ys) <= Z.abs (xe - xs) -> Z.abs (xe - xs) <> 0 ->
    (xs <= xe -> slope_room (xs, ys) (xe, ye)) /\ (xe <= xs -> slope_room (xe, ye) (xs, ys))).
  { intros D1 D2. split; intros D3; [apply (RE _ _ (or_introl eq_refl))|apply (RE _ _ (or_intror eq_refl))]; assumption. }
  assert (REY : Z.abs (xe - xs) < Z.abs (ye - ys) \/ Z.abs (xe - xs) = 0 ->
    (ys <= ye -> slope_room (ys, xs) (ye, xe)) /\ (ye <= ys -> slope_room (ye, xe) (ys, xs))).
  { intros D1. split; intros D3; [apply (RE _ _ (or_introl eq_refl))|apply (RE _ _ (or_intror eq_refl))]; assumption. }
  clear RE. unfold slope_room in REX, REY. cbn [fst snd] in REX, REY.
  assert (RX0 : Z.abs (xe - xs) = 0 -> Z.max ys ye < 2147483647).
  { intros D. destruct (REY (or_intror D)) as [U V]. unfold INT_MAX in U, V. clear - U V. destruct (Z_le_dec ys ye) as [O|O]; [specialize (U O)|specialize (V ltac:(lia))]; lia. }
  assert (RY0 : Z.abs (xe - xs) <> 0 -> Z.abs (ye - ys) = 0 -> Z.max xs xe < 2147483647).
  { intros D D'. destruct (REX ltac:(clear - D D'; lia) D) as [U V]. unfold INT_MAX in U, V. clear - U V. destruct (Z_le_dec xs xe) as [O|O]; [specialize (U O)|specialize (V ltac:(lia))]; lia. }
  revert REX REY. unfold INT_MAX in RX, RY, RS.
  ck. unfold lineSet. cbn [fst snd].
  destruct (Z.eqb_spec (Z.abs (xe - xs)) 0) as [HX|HX]; [|destruct (Z.eqb_spec (Z.abs (ye - ys)) 0) as [HY|HY]].
  - specialize (RX0 HX). specialize (RS (or_introl HX)). intros _ _. ck. rewrite dvl_ok by (unfold is_int, INT_MIN, INT_MAX; cbn [fst snd]; lia). f_equal. unfold vset. cbn [fst snd].
    assert (xe = xs) by lia. subst xe.
    destruct (Z.gtb_spec (Z.abs (ye - ys)) (Z.abs (xs - xs))) as [Hg|Hg].
    + cbn [linePlot]. destruct (Z.gtb_spec ys ye) as [Ho|Ho].
      * replace (Z.to_nat (Z.abs (ye - ys) + 1)) with (Z.to_nat (ys - ye + 1)) by lia. rewrite Z.min_r by lia.
        cbn [fst snd]. replace (Z.abs (xs - xs)) with 0 by lia.
        assert (HE : forall n i, map (fun i0 => (xs, i0)) (zrange n (ye + i)) = map (fun j => (xs + (if xs <? xs then 1 else -1) * K (Z.max (ys - ye) 1) 0 j, ye + j)) (zrange n i)).
        { induction n as [|n IH]; intros i; [reflexivity|]. cbn [zrange map]. rewrite K_zero by lia.
          replace (ye + i + 1) with (ye + (i + 1)) by ring. rewrite IH. f_equal. f_equal. ring. }
        rewrite <- HE. rewrite Z.add_0_r. reflexivity.
      * replace (Z.to_nat (Z.abs (ye - ys) + 1)) with (Z.to_nat (ye - ys + 1)) by lia. rewrite Z.min_l by lia.
        cbn [fst snd]. replace (Z.abs (xs - xs)) with 0 by lia.
        assert (HE : forall n i, map (fun i0 => (xs, i0)) (zrange n (ys + i)) = map (fun j => (xs + (if xs <? xs then 1 else -1) * K (Z.max (ye - ys) 1) 0 j, ys + j)) (zrange n i)).
        { induction n as [|n IH]; intros i; [reflexivity|]. cbn [zrange map]. rewrite K_zero by lia.
          replace (ys + i + 1) with (ys + (i + 1)) by ring. rewrite IH. f_equal. f_equal. ring. }
        rewrite <- HE. rewrite Z.add_0_r. reflexivity.
    + assert (ye = ys) by lia. subst ye. replace (xs >? xs) with false by lia. cbn [fst snd].
      rewrite Z.min_id. replace (ys - ys) with 0 by lia. replace (xs - xs) with 0 by lia. cbn [Z.abs Z.add Z.to_nat Pos.to_nat Pos.iter_op zrange map Z.max Z.compare linePlot].
      change (Pos.to_nat 1) with 1%nat. cbn [zrange map linePlot]. rewrite K_0 by lia. rewrite Z.mul_0_r, !Z.add_0_r. reflexivity.
  - specialize (RY0 HX HY). specialize (RS (or_intror HY)). intros _ _. ck. rewrite dhl_ok by (unfold is_int, INT_MIN, INT_MAX; cbn [fst snd]; lia). f_equal. unfold hset. cbn [fst snd].
    assert (ye = ys) by lia. subst ye.
    replace (Z.abs (ys - ys) >? Z.abs (xe - xs)) with false by lia. cbn [linePlot fst snd].
    destruct (Z.gtb_spec xs xe) as [Ho|Ho].
    + replace (Z.to_nat (Z.abs (xe - xs) + 1)) with (Z.to_nat (xs - xe + 1)) by lia. rewrite Z.min_r by lia.
      cbn [fst snd]. replace (Z.abs (ys - ys)) with 0 by lia.
      assert (HE : forall n i, map (fun i0 => (i0, ys)) (zrange n (xe + i)) = map (fun j => (xe + j, ys + (if ys <? ys then 1 else -1) * K (Z.max (xs - xe) 1) 0 j)) (zrange n i)).
      { induction n as [|n IH]; intros i; [reflexivity|]. cbn [zrange map]. rewrite K_zero by lia.
        replace (xe + i + 1) with (xe + (i + 1)) by ring. rewrite IH. f_equal. f_equal. ring. }
      rewrite <- HE. rewrite Z.add_0_r. reflexivity.
    + replace (Z.to_nat (Z.abs (xe - xs) + 1)) with (Z.to_nat (xe - xs + 1)) by lia. rewrite Z.min_l by lia.
      cbn [fst snd]. replace (Z.abs (ys - ys)) with 0 by lia.
      assert (HE : forall n i, map (fun i0 => (i0, ys)) (zrange n (xs + i)) = map (fun j => (xs + j, ys + (if ys <? ys then 1 else -1) * K (Z.max (xe - xs) 1) 0 j)) (zrange n i)).
      { induction n as [|n IH]; intros i; [reflexivity|]. cbn [zrange map]. rewrite K_zero by lia.
        replace (xs + i + 1) with (xs + (i + 1)) by ring. rewrite IH. f_equal. f_equal. ring. }
      rewrite <- HE. rewrite Z.add_0_r. reflexivity.
  - set (mv := Z.abs (ye - ys) >? Z.abs (xe - xs)).
    assert (Hmain : forall l0 s0 lm sm L S,
      L = lm - l0 -> S = Z.abs (sm - s0) -> 1 <= S <= L ->
      L <= 2147483647 -> -2147483648 <= l0 -> lm < 2147483647 -> is_int s0 -> is_int sm ->
      (lm - l0 < 2 * Z.abs (sm - s0) -> is_int (sm + Z.sgn (sm - s0))) ->
      lineLoop fuel mv L S (if s0 <? sm then 1 else -1) lm l0 s0 (Z.quot L 2) =
      Ok (map (fun j => linePlot mv (l0 + j) (s0 + (if s0 <? sm then 1 else -1) * K (Z.max L 1) S j)) (zrange (Z.to_nat (L + 1)) 0))).
    { clear - Hf. intros l0 s0 lm sm L S -> -> HS B0 B1 B2 B3 B4 B5. rewrite Z.max_l by lia. rewrite Z.quot_div_nonneg by lia.
      pose proof (lineLoop_ok mv (lm - l0) (Z.abs (sm - s0)) (if s0 <? sm then 1 else -1) l0 s0 (Z.to_nat (lm - l0 + 1)) fuel 0) as H.
      rewrite K_0 in H by lia.
      replace (l0 + (lm - l0)) with lm in H by ring. rewrite Z.add_0_r in H.
      replace (s0 + (if s0 <? sm then 1 else -1) * 0) with s0 in H by ring.
      replace ((lm - l0) / 2 - 0 * Z.abs (sm - s0) + 0 * (lm - l0)) with ((lm - l0) / 2) in H by ring.
      unfold is_int, INT_MIN, INT_MAX in *.
      assert (SG : s0 + (if s0 <? sm then 1 else -1) * Z.abs (sm - s0) = sm) by (clear; destruct (Z.ltb_spec s0 sm); lia).
      assert (SG2 : (if s0 <? sm then 1 else -1) = Z.sgn (sm - s0)) by (clear - HS; destruct (Z.ltb_spec s0 sm); [rewrite Z.sgn_pos by lia|rewrite Z.sgn_neg by lia]; reflexivity).
      apply H; try (rewrite SG); try (rewrite SG2); try exact B5; try (clear H B5 SG SG2; lia).
    }
    clear RS RX0 RY0. unfold mv in *. clear mv. intros REX REY.
    destruct (Z.gtb_spec (Z.abs (ye - ys)) (Z.abs (xe - xs))) as [Hg|Hg]; cbn [fst snd];
      [destruct (REY (or_introl Hg)) as [U V]; clear REX REY|destruct (REX ltac:(clear - Hg; lia) HX) as [U V]; clear REX REY].
    + destruct (Z.gtb_spec ys ye) as [Ho|Ho]; cbn [fst snd]; [destruct (V ltac:(clear - Ho; lia)) as [V1 V2]|destruct (U ltac:(clear - Ho; lia)) as [V1 V2]]; clear U V; unfold INT_MAX in V1.
      * rewrite (Hmain ye xe ys xs) by (first [exact V2|clear V2 Hmain; unfold is_int, INT_MIN, INT_MAX; lia]). f_equal. replace (Z.abs (ye - ys)) with (ys - ye) by lia.
        replace (Z.abs (xe - xs)) with (Z.abs (xs - xe)) by lia. reflexivity.
      * rewrite (Hmain ys xs ye xe) by (first [exact V2|clear V2 Hmain; unfold is_int, INT_MIN, INT_MAX; lia]). f_equal. replace (Z.abs (ye - ys)) with (ye - ys) by lia. reflexivity.
    + destruct (Z.gtb_spec xs xe) as [Ho|Ho]; cbn [fst snd]; [destruct (V ltac:(clear - Ho; lia)) as [V1 V2]|destruct (U ltac:(clear - Ho; lia)) as [V1 V2]]; clear U V; unfold INT_MAX in V1.
      * rewrite (Hmain xe ye xs ys) by (first [exact V2|clear V2 Hmain; unfold is_int, INT_MIN, INT_MAX; lia]). f_equal. replace (Z.abs (xe - xs)) with (xs - xe) by lia.
        replace (Z.abs (ye - ys)) with (Z.abs (ys - ye)) by lia. reflexivity.
      * rewrite (Hmain xs ys xe ye) by (first [exact V2|clear V2 Hmain; unfold is_int, INT_MIN, INT_MAX; lia]). f_equal. replace (Z.abs (xe - xs)) with (xe - xs) by lia. reflexivity.
Qed.

Lemma line_room_wide s e : wide s -> wide e -> line_room s e.
Proof.
  unfold wide, line_room, slope_room, flip, is_int, INT_MIN, INT_MAX. intros Hs He. cbv zeta. do 3 (split; [lia|]).
  intros s' e' [E|E]; inversion E; subst; cbn [fst snd]; split; intros; split; lia.
Qed.
Lemma drawLine_ok c a b :
  near_canvas c -> near_pt a -> near_pt b ->
  completes (fun fuel => drawLine fuel c a b) (lineSet (phys c a) (phys c b)).
Proof.
  intros Hc Ha Hb.
  assert (Hpa : wide (phys c a) /\ wide (phys c b)).
  { rewrite !phys_val. unfold wide, near_canvas, near_pt, near in *. destruct (rot c); cbn [fst snd]; lia. }
  destruct Hpa as [Ws We].
  apply drawLine_room; try (apply transformPoint_ok; assumption); try (apply line_room_wide; assumption);
    unfold wide, is_point, is_int, INT_MIN, INT_MAX in *; lia.
Qed.

Lemma sg_S s0 sm : (if s0 <? sm then 1 else -1) * Z.abs (sm - s0) = sm - s0.
Proof. destruct (Z.ltb_spec s0 sm); lia. Qed.

Lemma line_half L s0 sm i :
  1 <= L -> 2 * Z.abs (L * ((if s0 <? sm then 1 else -1) * K L (Z.abs (sm - s0)) i) - i * (sm - s0)) <= L.
Proof.
  intros HL. pose proof (K_half L (Z.abs (sm - s0)) i HL) as H. pose proof (sg_S s0 sm) as E.
  destruct (s0 <? sm); rewrite <- E at 2; lia.
Qed.

Lemma lineSet_digital s e : digital_line s e (lineSet s e).
Proof.
  destruct s as [xs ys], e as [xe ye]. unfold lineSet. cbn [fst snd].
  assert (Hmain : forall mv l0 s0 lm sm a b x1 y1 x2 y2,
    0 <= lm - l0 -> Z.abs (sm - s0) <= lm - l0 ->
    a = linePlot mv l0 s0 -> b = linePlot mv lm sm ->
    ((a, b) = ((x1, y1), (x2, y2)) \/ (a, b) = ((x2, y2), (x1, y1))) ->
    digital_line (x1, y1) (x2, y2)
      (map (fun j => linePlot mv (l0 + j) (s0 + (if s0 <? sm then 1 else -1) * K (Z.max (lm - l0) 1) (Z.abs (sm - s0)) j))
           (zrange (Z.to_nat (lm - l0 + 1)) 0))).
  { intros mv l0 s0 lm sm a b x1 y1 x2 y2 HL HS Ea Eb Hab. set (L := lm - l0) in *.
    exists a, b. split; [exact Hab|].
    assert (HmL : Z.max (Z.abs (fst (x2, y2) - fst (x1, y1))) (Z.abs (snd (x2, y2) - snd (x1, y1))) = L).
    { cbn [fst snd]. destruct Hab as [Hab|Hab]; inversion Hab as [[H1 H2]]; rewrite Ea in H1; rewrite Eb in H2;
        destruct mv; cbn [linePlot] in *; inversion H1; inversion H2; subst; unfold L in *; lia. }
    rewrite HmL. cbv zeta. rewrite zlen_map, zlen_zrange. rewrite Z2Nat.id by lia.
    set (sg := if s0 <? sm then 1 else -1) in *. set (S := Z.abs (sm - s0)) in *.
    assert (Hsg : sg = 1 \/ sg = -1) by (unfold sg; destruct (s0 <? sm); auto).
    assert (HsS : sg * S = sm - s0) by (apply sg_S).
    assert (HS0 : 0 <= S) by (unfold S; lia).
    assert (Hn : forall i, 0 <= i <= L -> nth_error (map (fun j => linePlot mv (l0 + j) (s0 + sg * K (Z.max L 1) S j)) (zrange (Z.to_nat (L + 1)) 0)) (Z.to_nat i)
                    = Some (linePlot mv (l0 + i) (s0 + sg * K (Z.max L 1) S i))).
    { intros i Hi. rewrite map_zrange_nth by lia. rewrite Z.add_0_l. reflexivity. }
    split; [reflexivity|].
    split; [change 0%nat with (Z.to_nat 0); rewrite Hn by lia; rewrite K_0 by lia; rewrite Ea, Z.mul_0_r, !Z.add_0_r; reflexivity|].
    split; [rewrite Hn by lia; f_equal; rewrite Eb; replace (l0 + L) with lm by (unfold L; ring)|split].
    { destruct (Z.eq_dec L 0) as [H0|H0].
      - assert (S = 0) as HS00 by lia. rewrite HS00, K_zero by lia. f_equal. lia.
      - rewrite Z.max_l by lia. rewrite K_end by lia. f_equal. lia. }
    - intros i Hi. eexists. split; [apply Hn; exact Hi|]. rewrite Ea, Eb.
      destruct (Z.eq_dec L 0) as [H0|H0].
      + assert (i = 0) by lia. subst i. rewrite H0. lia.
      + pose proof (line_half L s0 sm i ltac:(lia)) as Hh. fold sg in Hh. fold S in Hh. rewrite Z.max_l by lia.
        destruct mv; cbn [linePlot fst snd].
        * replace (s0 + sg * K L S i - s0) with (sg * K L S i) by ring. split; [exact Hh|].
          replace (L * (l0 + i - l0) - i * (lm - l0)) with 0 by (unfold L; ring). lia.
        * replace (s0 + sg * K L S i - s0) with (sg * K L S i) by ring. split; [|exact Hh].
          replace (L * (l0 + i - l0) - i * (lm - l0)) with 0 by (unfold L; ring). lia.
    - intros i p q Hi Hp Hq. rewrite Hn in Hp by lia. rewrite Hn in Hq by lia. injection Hp as <-. injection Hq as <-.
      pose proof (K_step (Z.max L 1) S i ltac:(lia) ltac:(lia)) as Hk.
      destruct mv; cbn [linePlot fst snd].
      + split; [destruct Hsg; subst sg; destruct Hk as [-> | ->]; lia|]. split; [lia|]. intros E. inversion E. lia.
      + split; [lia|]. split; [destruct Hsg as [-> | ->]; destruct Hk as [-> | ->]; lia|]. intros E. inversion E. lia. }
  destruct (Z.gtb_spec (Z.abs (ye - ys)) (Z.abs (xe - xs))) as [Hg|Hg]; cbn [fst snd].
  - destruct (Z.gtb_spec ys ye) as [Ho|Ho]; cbn [fst snd].
    + eapply (Hmain true ye xe ys xs _ _ xs ys xe ye); [lia|lia|reflexivity|reflexivity|right; reflexivity].
    + eapply (Hmain true ys xs ye xe _ _ xs ys xe ye); [lia|lia|reflexivity|reflexivity|left; reflexivity].
  - destruct (Z.gtb_spec xs xe) as [Ho|Ho]; cbn [fst snd].
    + eapply (Hmain false xe ye xs ys _ _ xs ys xe ye); [lia|lia|reflexivity|reflexivity|right; reflexivity].
    + eapply (Hmain false xs ys xe ye _ _ xs ys xe ye); [lia|lia|reflexivity|reflexivity|left; reflexivity].
Qed.

Lemma K_rounded L S i : 1 <= L -> 0 <= S -> 0 <= i -> rounded (i * S) L (K L S i).
Proof.
  intros HL HS Hi. pose proof (K_bounds L S i HL). pose proof (half_bounds L ltac:(lia)). assert (0 <= i * S) by nia.
  assert (0 <= K L S i) by nia. unfold rounded. split; [assumption|]. split; [lia|]. intros _. lia.
Qed.
Lemma rounded_unique n d k k' : 0 <= n -> 0 <= d -> rounded n d k -> rounded n d k' -> k = k'.
Proof.
  intros Hn Hd (A1 & A2 & A3) (B1 & B2 & B3). destruct (Z.lt_trichotomy k k') as [H|[H|H]]; [|exact H|]; exfalso.
  - specialize (B3 ltac:(lia)). nia.
  - specialize (A3 ltac:(lia)). nia.
Qed.
Lemma lineSet_nearest mv l0 s0 lm sm p : l0 <= lm -> Z.abs (sm - s0) <= lm - l0 ->
  (In p (map (fun j => linePlot mv (l0 + j) (s0 + (if s0 <? sm then 1 else -1) * K (Z.max (lm - l0) 1) (Z.abs (sm - s0)) j))
           (zrange (Z.to_nat (lm - l0 + 1)) 0)) <->
   nearest (l0, s0) (lm, sm) (if mv then flip p else p)).
Proof.
  intros HL HS. set (S := Z.abs (sm - s0)) in *. set (L := lm - l0) in *.
  assert (SG : forall k, (S = 0 -> k = 0) -> (if s0 <? sm then 1 else -1) * k = Z.sgn (sm - s0) * k).
  { intros k Hk. destruct (Z.ltb_spec s0 sm); [rewrite Z.sgn_pos by lia; reflexivity|].
    destruct (Z.eq_dec sm s0); [rewrite Hk by (unfold S; lia); lia|rewrite Z.sgn_neg by lia; reflexivity]. }
  assert (KR : forall j, 0 <= j <= L -> rounded (j * S) L (K (Z.max L 1) S j) /\ (S = 0 -> K (Z.max L 1) S j = 0)).
  { intros j Hj. split; [|intros ->; apply K_zero; lia]. destruct (Z.eq_dec L 0) as [E|E].
    - assert (S = 0) by lia. rewrite H, K_zero by lia. unfold rounded. lia.
    - rewrite Z.max_l by lia. apply K_rounded; lia. }
  rewrite in_map_iff. unfold nearest. cbn [fst snd]. fold S L. split.
  - intros (j & <- & Hj). apply In_zrange in Hj. destruct (KR j ltac:(lia)) as [R R0].
    assert (E : (if mv then flip (linePlot mv (l0 + j) (s0 + (if s0 <? sm then 1 else -1) * K (Z.max L 1) S j)) else linePlot mv (l0 + j) (s0 + (if s0 <? sm then 1 else -1) * K (Z.max L 1) S j))
       = (l0 + j, s0 + (if s0 <? sm then 1 else -1) * K (Z.max L 1) S j)) by (destruct mv; reflexivity).
    rewrite E. cbn [fst snd]. split; [lia|]. exists (K (Z.max L 1) S j). split; [|rewrite SG by exact R0; reflexivity].
    replace (l0 + j - l0) with j by ring. exact R.
  - intros (H1 & k & R & H2). assert (Hq : exists q, q = (if mv then flip p else p)) by eauto. destruct Hq as [q Hq]. rewrite <- Hq in *.
    exists (fst q - l0). destruct (KR (fst q - l0) ltac:(lia)) as [R' R0]. split; [|apply In_zrange; lia].
    rewrite SG by exact R0. rewrite <- (rounded_unique _ L _ _ (Z.mul_nonneg_nonneg (fst q - l0) S ltac:(lia) ltac:(lia)) ltac:(lia) R R'). rewrite <- H2.
    replace (l0 + (fst q - l0)) with (fst q) by ring. destruct mv, p as [x y]; subst q; reflexivity.
Qed.
Lemma lineSet_pixels s e p : In p (lineSet s e) <-> line_pixel s e p.
Proof.
  destruct s as [xs ys], e as [xe ye]. unfold lineSet, line_pixel. cbn [fst snd].
  destruct (Z.gtb_spec (Z.abs (ye - ys)) (Z.abs (xe - xs))) as [Hg|Hg]; cbn [fst snd].
  - destruct (Z.gtb_spec ys ye) as [Ho|Ho]; cbn [fst snd].
    + rewrite (lineSet_nearest true ye xe ys xs) by lia. split.
      * intros H. exists (xe, ye), (xs, ys). split; [auto|]. right. unfold flip at 1 2. cbn [fst snd]. split; [lia|]. split; [lia|exact H].
      * intros (s & e & [E|E] & [(A & B & C)|(A & B & C)]); inversion E; subst; cbn [fst snd] in *; try lia. exact C.
    + rewrite (lineSet_nearest true ys xs ye xe) by lia. split.
      * intros H. exists (xs, ys), (xe, ye). split; [auto|]. right. unfold flip at 1 2. cbn [fst snd]. split; [lia|]. split; [lia|exact H].
      * intros (s & e & [E|E] & [(A & B & C)|(A & B & C)]); inversion E; subst; cbn [fst snd] in *; try lia. exact C.
  - destruct (Z.gtb_spec xs xe) as [Ho|Ho]; cbn [fst snd].
    + rewrite (lineSet_nearest false xe ye xs ys) by lia. split.
      * intros H. exists (xe, ye), (xs, ys). split; [auto|]. left. cbn [fst snd]. split; [lia|]. split; [lia|exact H].
      * intros (s & e & [E|E] & [(A & B & C)|(A & B & C)]); inversion E; subst; cbn [fst snd] in *; try lia. exact C.
    + rewrite (lineSet_nearest false xs ys xe ye) by lia. split.
      * intros H. exists (xs, ys), (xe, ye). split; [auto|]. left. cbn [fst snd]. split; [lia|]. split; [lia|exact H].
      * intros (s & e & [E|E] & [(A & B & C)|(A & B & C)]); inversion E; subst; cbn [fst snd] in *; try lia; try exact C.
        assert (xs = xe) by lia. assert (ys = ye) by lia. subst. exact C.
Qed.

Lemma digital_line_logical c a b l :
  digital_line (phys c a) (phys c b) l -> digital_line a b (map (logical c) l).
Proof.
  intros [s [e [Hse [Hl [H0 [HL [Hi Hn]]]]]]].
  assert (HM : Z.max (Z.abs (fst (phys c b) - fst (phys c a))) (Z.abs (snd (phys c b) - snd (phys c a))) =
               Z.max (Z.abs (fst b - fst a)) (Z.abs (snd b - snd a))).
  { rewrite !phys_val. destruct (rot c); cbn [fst snd]; lia. }
  rewrite HM in *. set (L := Z.max (Z.abs (fst b - fst a)) (Z.abs (snd b - snd a))) in *.
  exists (logical c s), (logical c e). cbv zeta. fold L.
  split; [destruct Hse as [Hse|Hse]; inversion Hse; subst; rewrite !logical_phys; auto|].
  split; [rewrite zlen_map; exact Hl|].
  split; [rewrite nth_error_map; unfold pt; rewrite H0; reflexivity|].
  split; [rewrite nth_error_map; unfold pt; rewrite HL; reflexivity|].
  split.
  - intros i Hir. destruct (Hi i Hir) as [p [Hp [A B]]]. exists (logical c p).
    split; [rewrite nth_error_map; unfold pt; rewrite Hp; reflexivity|].
    unfold logical. destruct (rot c); cbn [fst snd].
    + split; assumption.
    + split; [exact B|].
      replace (L * (cw c - 1 - fst p - (cw c - 1 - fst s)) - i * (cw c - 1 - fst e - (cw c - 1 - fst s)))
        with (- (L * (fst p - fst s) - i * (fst e - fst s))) by ring. rewrite Z.abs_opp. exact A.
    + replace (L * (cw c - 1 - fst p - (cw c - 1 - fst s)) - i * (cw c - 1 - fst e - (cw c - 1 - fst s)))
        with (- (L * (fst p - fst s) - i * (fst e - fst s))) by ring. rewrite Z.abs_opp.
      replace (L * (ch c - 1 - snd p - (ch c - 1 - snd s)) - i * (ch c - 1 - snd e - (ch c - 1 - snd s)))
        with (- (L * (snd p - snd s) - i * (snd e - snd s))) by ring. rewrite Z.abs_opp. split; assumption.
    + split; [|exact A].
      replace (L * (ch c - 1 - snd p - (ch c - 1 - snd s)) - i * (ch c - 1 - snd e - (ch c - 1 - snd s)))
        with (- (L * (snd p - snd s) - i * (snd e - snd s))) by ring. rewrite Z.abs_opp. exact B.
  - intros i p q Hir Hp Hq. rewrite nth_error_map in Hp, Hq. unfold pt in Hp, Hq.
    destruct (nth_error l (Z.to_nat i)) as [p'|] eqn:Ep; [|discriminate]. cbn [option_map] in Hp. injection Hp as <-.
    destruct (nth_error l (Z.to_nat (i + 1))) as [q'|] eqn:Eq; [|discriminate]. cbn [option_map] in Hq. injection Hq as <-.
    destruct (Hn i p' q' Hir Ep Eq) as [A [B C]].
    assert (D : logical c p' <> logical c q').
    { intros E. apply C. rewrite <- (phys_logical c p'), <- (phys_logical c q'), E. reflexivity. }
    split; [|split; [|exact D]]; unfold logical; destruct (rot c); cbn [fst snd]; lia.
Qed.

Lemma drawLine_sym fuel c a b : drawLine fuel c a b = drawLine fuel c b a.
Proof.
  unfold drawLine.
  destruct (transformPoint c a) as [[xs ys]| |] eqn:Ea; cbn [bind].
  2: { destruct (transformPoint c b) eqn:Eb; cbn [bind]; try reflexivity.
       exfalso. unfold transformPoint in Eb. destruct (rot c); unfold chk in Eb;
         repeat match type of Eb with context [if ?x then _ else _] => destruct x; cbn [bind] in Eb end; discriminate. }
  2: { exfalso. unfold transformPoint in Ea. destruct (rot c); unfold chk in Ea;
         repeat match type of Ea with context [if ?x then _ else _] => destruct x; cbn [bind] in Ea end; discriminate. }
  destruct (transformPoint c b) as [[xe ye]| |] eqn:Eb; cbn [bind]; [|reflexivity|reflexivity].
  cbn [fst snd].
  assert (Hc : forall A (x y : Z) (k : Z -> res A),
     (do d <- chk (x - y); do a <- chk (Z.abs d); k a) = if in_int (Z.abs (x - y)) then k (Z.abs (x - y)) else UB).
  { intros A x y k. unfold chk. destruct (in_int (x - y)) eqn:E1.
    - cbn [bind]. destruct (in_int (Z.abs (x - y))); reflexivity.
    - cbn [bind]. destruct (in_int (Z.abs (x - y))) eqn:E2; [|reflexivity]. exfalso. apply in_int_true in E2.
      assert (in_int (x - y) = true) by (apply in_int_true; unfold INT_MIN, INT_MAX in *; lia). congruence. }
  etransitivity; [apply Hc|]. symmetry. etransitivity; [apply Hc|]. symmetry. replace (Z.abs (xs - xe)) with (Z.abs (xe - xs)) by lia.
  destruct (in_int (Z.abs (xe - xs))); [|reflexivity].
  etransitivity; [apply Hc|]. symmetry. etransitivity; [apply Hc|]. symmetry. replace (Z.abs (ys - ye)) with (Z.abs (ye - ys)) by lia.
  destruct (in_int (Z.abs (ye - ys))); [|reflexivity].
  destruct (Z.eqb_spec (Z.abs (xe - xs)) 0) as [HX|HX].
  { replace xe with xs by lia. rewrite (Z.min_comm ye ys). reflexivity. }
  destruct (Z.eqb_spec (Z.abs (ye - ys)) 0) as [HY|HY].
  { replace ye with ys by lia. rewrite (Z.min_comm xe xs). reflexivity. }
  cbv zeta. cbn [fst snd].
  destruct (Z.gtb_spec (Z.abs (ye - ys)) (Z.abs (xe - xs))) as [Hg|Hg].
  - destruct (Z.gtb_spec ys ye), (Z.gtb_spec ye ys); try lia; reflexivity.
  - destruct (Z.gtb_spec xs xe), (Z.gtb_spec xe xs); try lia; reflexivity.
Qed.

(** ** Rectangles *)
Ltac okinv := repeat match goal with
  | H : bind _ _ = Ok _ |- _ => apply bind_inv in H; destruct H as (? & ? & H)
  | H : chk _ = Ok _ |- _ => apply chk_inv in H; destruct H as [-> H]
  | H : Ok _ = Ok _ |- _ => apply Ok_inj in H; subst
  end.
Lemma transformRect_iff c r q : sized c -> is_rect r -> (transformRect c r = Ok q <-> turn_room c r /\ q = turned c r).
Proof.
  unfold sized, is_rect, turn_room, turned, edge_room, corner_room, is_point, is_int, INT_MIN, INT_MAX.
  intros Hc Hr. destruct r as [[x y] [w h]], c as [W H ro]. unfold transformRect. cbn [cw ch rot tl sz fst snd] in *.
  unfold bottomLeft, topRight, bottomRight, size_sub, pt_add, transformPoint. cbn [cw ch rot tl sz fst snd].
  destruct ro; cbn [tl sz fst snd]; split.
  - intros E. okinv. split; [split; [lia|exact I]|reflexivity].
  - intros [_ ->]. reflexivity.
  - intros E. okinv. cbn [fst snd] in *. unfold INT_MIN, INT_MAX in *. split; [lia|]. do 2 f_equal. lia.
  - intros [E ->]. ck. cbn [fst snd]. ck. do 3 f_equal. lia.
  - intros E. okinv. cbn [fst snd] in *. okinv. cbn [fst snd] in *. unfold INT_MIN, INT_MAX in *. split; [lia|]. do 2 f_equal; lia.
  - intros [E ->]. ck. cbn [fst snd]. ck. cbn [fst snd]. ck. do 3 f_equal; lia.
  - intros E. okinv. cbn [fst snd] in *. unfold INT_MIN, INT_MAX in *. split; [lia|]. do 2 f_equal. lia.
  - intros [E ->]. ck. cbn [fst snd]. ck. do 3 f_equal. lia.
Qed.
Lemma turned_box c r p : in_box (tl (turned c r)) (sz (turned c r)) (phys c p) <-> in_box (tl r) (sz r) p.
Proof.
  rewrite phys_val. destruct r as [[x y] [w h]]. unfold turned, in_box. destruct (rot c); cbn [tl sz fst snd]; lia.
Qed.
Lemma turned_frame c r p : frame (tl (turned c r)) (sz (turned c r)) (phys c p) <-> frame (tl r) (sz r) p.
Proof.
  rewrite phys_val. destruct r as [[x y] [w h]]. unfold turned, frame. destruct (rot c); cbn [tl sz fst snd]; lia.
Qed.
Lemma near_rooms c r : near_canvas c -> near_pt (tl r) -> near_pt (sz r) ->
  sized c /\ is_rect r /\ turn_room c r /\ outline_room (turned c r) /\ corner_room (turned c r).
Proof.
  unfold near_canvas, near_pt, near, sized, is_rect, turn_room, outline_room, turned, edge_room, corner_room, is_point, is_int, INT_MIN, INT_MAX.
  destruct r as [[x y] [w h]]. cbn [tl sz fst snd]. intros Hc Hp Hs. split; [lia|]. split; [lia|].
  destruct (rot c); cbn [tl sz fst snd]; repeat split; lia.
Qed.

Lemma drawRectangle_room c r : sized c -> is_rect r -> turn_room c r -> outline_room (turned c r) ->
  exists l, drawRectangle c r = Ok l /\ forall p, In (phys c p) l <-> frame (tl r) (sz r) p.
Proof.
  intros Hc Hr Ht Ho. unfold drawRectangle. rewrite (proj2 (transformRect_iff c r _ Hc Hr) (conj Ht eq_refl)). cbn [bind].
  pose proof (proj1 Ht) as Htl. pose proof (turned_frame c r) as TF. destruct (turned c r) as [[x y] [w h]]. clear Ht Hr.
  unfold outline_room, edge_room, is_point, is_int, INT_MIN, INT_MAX in *. cbn [tl sz fst snd] in *.
  unfold bottomLeft, topRight. cbn [tl sz fst snd].
  rewrite dhl_ok by (unfold is_int, INT_MIN, INT_MAX; cbn [fst snd]; lia). cbn [bind]. ck.
  rewrite dhl_ok by (unfold is_int, INT_MIN, INT_MAX; cbn [fst snd]; lia). cbn [bind].
  rewrite dvl_ok by (unfold is_int, INT_MIN, INT_MAX; cbn [fst snd]; lia). cbn [bind].
  rewrite dvl_ok by (unfold is_int, INT_MIN, INT_MAX; cbn [fst snd]; lia). cbn [bind].
  eexists. split; [reflexivity|]. intros p. rewrite <- TF. rewrite !in_app_iff, !In_hset, !In_vset. unfold frame. cbn [fst snd]. lia.
Qed.
Lemma drawRectangle_inv c r l : sized c -> is_rect r -> drawRectangle c r = Ok l -> turn_room c r /\ outline_room (turned c r).
Proof.
  intros Hc Hr H. unfold drawRectangle in H. apply bind_inv in H. destruct H as (q & E & H). apply (transformRect_iff c r q Hc Hr) in E.
  destruct E as [Ht ->]. split; [exact Ht|]. unfold bottomLeft, topRight in H. okinv. unfold outline_room, edge_room, is_int. auto.
Qed.
Lemma drawRectangle_ok c r :
  near_canvas c -> near_pt (tl r) -> near_pt (sz r) ->
  exists l, drawRectangle c r = Ok l /\ forall p, In (phys c p) l <-> frame (tl r) (sz r) p.
Proof. intros Hc Hp Hs. destruct (near_rooms c r Hc Hp Hs) as (A & B & C & D & _). apply drawRectangle_room; assumption. Qed.

Lemma fillRows_ok n : forall fuel x y w bottom,
  is_int x -> x + Z.max 0 w <= INT_MAX -> is_int y -> is_int (bottom + 1) ->
  bottom - y + 1 <= Z.of_nat n -> (n < fuel)%nat ->
  exists l, fillRows fuel (x, y) bottom w = Ok l /\ NoDup l /\
    forall q, In q l <-> x <= fst q < x + w /\ y <= snd q <= bottom.
Proof.
  induction n as [|n IH]; intros fuel x y w bottom Hx Hw Hy Hb Hn Hf; (destruct fuel as [|fuel]; [lia|]); cbn [fillRows fst snd].
  - replace (y <=? bottom) with false by lia. exists []. split; [reflexivity|]. split; [constructor|].
    intros q. cbn [In]. lia.
  - destruct (Z.leb_spec y bottom) as [Hyb|Hyb].
    + rewrite dhl_ok by (cbn [fst]; assumption). cbn [bind].
      unfold is_int in *. rewrite chk_ok by (unfold INT_MIN, INT_MAX in *; lia). cbn [bind].
      destruct (IH fuel x (y + 1) w bottom) as [l [E [ND F]]]; try assumption; try (unfold is_int, INT_MIN, INT_MAX in *; lia).
      rewrite E. cbn [bind]. eexists. split; [reflexivity|]. split.
      * assert (forall a b : list pt, NoDup a -> NoDup b -> (forall z, In z a -> ~ In z b) -> NoDup (a ++ b)) as Happ.
        { clear. induction a as [|z a IHa]; intros b Ha Hb Hab; [exact Hb|]. inversion Ha; subst. cbn [app]. constructor.
          - rewrite in_app_iff. intros [H|H]; [contradiction|]. apply (Hab z); [left; reflexivity|exact H].
          - apply IHa; [assumption|assumption|]. intros u Hu. apply Hab. right. exact Hu. }
        apply Happ; [apply NoDup_hset|exact ND|]. intros z Hz. rewrite F. apply In_hset in Hz. cbn [fst snd] in Hz. lia.
      * intros q. rewrite in_app_iff, In_hset, F. cbn [fst snd]. lia.
    + exists []. split; [reflexivity|]. split; [constructor|]. intros q. cbn [In]. lia.
Qed.

Lemma fillRows_mono : forall f1 f2 p b w0 l1, (f1 <= f2)%nat -> fillRows f1 p b w0 = Ok l1 -> fillRows f2 p b w0 = Ok l1.
Proof.
  induction f1 as [|f1 IH]; intros f2 p b w0 l1 Hle H; [discriminate|]. destruct f2 as [|f2]; [lia|].
  cbn [fillRows] in *. destruct (snd p <=? b); [|exact H].
  destruct (drawHorizontalLine p w0); cbn [bind] in *; try discriminate.
  destruct (chk (snd p + 1)); cbn [bind] in *; try discriminate.
  destruct (fillRows f1 (fst p, a0) b w0) eqn:E1; cbn [bind] in H; try discriminate.
  rewrite (IH f2 _ _ _ _ ltac:(lia) E1). exact H.
Qed.
Lemma drawFilledRectangle_room c r : sized c -> is_rect r -> turn_room c r -> corner_room (turned c r) ->
  exists l, completes (fun fuel => drawFilledRectangle fuel c r) l /\ NoDup l /\
    (forall q, In q l -> in_grid (cw c, ch c) q) /\
    forall p, In (phys c p) l <-> in_box (tl r) (sz r) p /\ in_grid (getSize c) p.
Proof.
  intros Hc Hr Ht Ho. unfold drawFilledRectangle. rewrite (proj2 (transformRect_iff c r _ Hc Hr) (conj Ht eq_refl)).
  pose proof (proj1 Ht) as Htl. pose proof (turned_box c r) as TB. destruct (turned c r) as [[x y] [w h]]. clear Ht Hr.
  unfold corner_room, sized, is_point, is_int, INT_MIN, INT_MAX in Hc, Htl, Ho. cbn [tl sz fst snd] in *.
  set (bottom := Z.min (y + h - 1) (ch c - 1)). set (wd := Z.min (x + w - 1) (cw c - 1) - Z.max x 0 + 1).
  destruct (fillRows_ok (Z.to_nat (bottom - Z.max y 0 + 1)) (S (Z.to_nat (bottom - Z.max y 0 + 1))) (Z.max x 0) (Z.max y 0) wd bottom)
    as [l [E [ND F]]]; try (unfold is_int, INT_MIN, INT_MAX, bottom, wd; lia).
  assert (FG : forall q, In q l <-> in_box (x, y) (w, h) q /\ in_grid (cw c, ch c) q).
  { intros q. rewrite F. unfold in_grid, in_box, wd, bottom. cbn [fst snd]. lia. }
  exists l. split; [|split; [exact ND|split]].
  - exists (S (Z.to_nat (bottom - Z.max y 0 + 1))). intros fuel Hf. cbn [bind]. unfold bottomRight, size_sub, pt_add. cbn [tl sz fst snd]. ck. cbn [fst snd]. ck. cbn [fst snd].
    replace (x + (w - 1)) with (x + w - 1) by ring. replace (y + (h - 1)) with (y + h - 1) by ring. fold bottom. ck. fold wd.
    apply (fillRows_mono _ _ _ _ _ _ Hf E).
  - intros q Hq. apply FG in Hq. tauto.
  - intros p. rewrite FG, TB, phys_grid. reflexivity.
Qed.
Lemma drawFilledRectangle_inv c r fuel l : sized c -> is_rect r -> drawFilledRectangle fuel c r = Ok l -> turn_room c r /\ corner_room (turned c r).
Proof.
  intros Hc Hr H. unfold drawFilledRectangle in H. apply bind_inv in H. destruct H as (q & E & H). apply (transformRect_iff c r q Hc Hr) in E.
  destruct E as [Ht ->]. split; [exact Ht|]. apply bind_inv in H. destruct H as (br & H & _). unfold bottomRight, size_sub, pt_add in H. okinv. cbn [fst snd] in *. okinv.
  unfold corner_room, is_int, INT_MIN, INT_MAX in *. lia.
Qed.
Lemma drawFilledRectangle_ok c r :
  near_canvas c -> near_pt (tl r) -> near_pt (sz r) ->
  exists l, completes (fun fuel => drawFilledRectangle fuel c r) l /\ NoDup l /\
    (forall q, In q l -> in_grid (cw c, ch c) q) /\
    forall p, In (phys c p) l <-> in_box (tl r) (sz r) p /\ in_grid (getSize c) p.
Proof. intros Hc Hp Hs. destruct (near_rooms c r Hc Hp Hs) as (A & B & C & _ & D). apply drawFilledRectangle_room; assumption. Qed.
