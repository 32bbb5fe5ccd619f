(** Float insertion. *)
From Coq Require Import Reals Lra.
From Flocq Require Import Core IEEE754.Binary IEEE754.Bits.
From Verif Require Import Base S_BufferedOut M_BufferedOut L_Decimal L_BufferedOut L_Float.
Open Scope Z_scope.

Lemma horner_acc ds : forall acc, horner acc ds = acc * 10 ^ zlen ds + horner 0 ds.
Proof.
  induction ds as [|d ds IH]; intros acc; cbn [horner].
  - rewrite zlen_nil. lia.
  - rewrite IH, (IH (10 * 0 + (d - 48))). rewrite zlen_cons, Z.pow_add_r by (pose proof (zlen_nonneg ds); lia). lia.
Qed.
Lemma pow10_IZR (ds : list Z) : IZR (10 ^ zlen ds) = (10 ^ length ds)%R.
Proof.
  unfold zlen. rewrite <- pow_IZR. reflexivity.
Qed.

(** how well the digits [ds] approximate the fraction [x] *)
Definition approx (x : R) (ds : list Z) : Prop :=
  exists x', (0 <= x' < 1)%R /\
    (Rabs (IZR (horner 0 ds) + x' - x * 10 ^ length ds) <= (10 ^ length ds - 1) / 9 * / 2097152)%R /\
    ((exists k, x = IZR k * / 1048576)%R -> (IZR (horner 0 ds) + x' = x * 10 ^ length ds)%R).

Lemma fracLoop_ok rm : forall s f x precision, inside s -> rm = Z.to_nat (room s) -> is_frac f x -> 0 <= precision ->
  exists m p ds, fracLoop rm (mem s) (pos s) precision f = Ok (m, p) /\
    appended s ds (Bo m p (prec s) (wid s) (fillc s)) /\
    Forall is_digit ds /\ zlen ds = Z.min precision (room s) /\ approx x ds.
Proof.
  assert (Base0 : forall x, (0 <= x < 1)%R -> approx x []).
  { intros x Hx. exists x. split; [exact Hx|]. cbn [length horner pow]. split; [|intros _; lra].
    replace (0 + x - x * 1)%R with 0%R by ring. rewrite Rabs_R0. lra. }
  induction rm as [|rm IH]; intros s f x precision Hs Er Hf Hp; cbn [fracLoop].
  - exists (mem s), (pos s), []. split; [reflexivity|]. split; [apply appended_nil; exact Hs|].
    split; [apply Forall_nil|]. split; [rewrite zlen_nil; unfold inside, room in *; lia|]. apply Base0, Hf.
  - destruct (Z.ltb_spec 0 precision) as [H|H].
    + destruct (digit_step f x Hf) as (d & x' & D1 & D2 & D3 & D4 & D5). cbv zeta in D1, D3.
      rewrite D1. cbn [bind]. rewrite chk_ok by (unfold INT_MIN, INT_MAX; lia). cbn [bind].
      replace (u8 (48 + d)) with (48 + d) by (unfold u8; symmetry; apply Z.mod_small; lia).
      assert (Hroom : 1 <= room s) by lia. pose proof Hs as Hs'. pose proof Hroom as Hr'. unfold inside, room, size, capacity in Hs', Hr'.
      rewrite wr_app by lia. cbn [bind].
      set (s1 := Bo (blit (mem s) (pos s) [48 + d]) (pos s + 1) (prec s) (wid s) (fillc s)).
      assert (A : appended s [48 + d] s1) by (apply appended_char; assumption).
      destruct (appended_inside _ _ _ Hs A) as [Hs1 Hr1]. change (zlen [48 + d]) with 1 in Hr1.
      destruct (IH s1 _ x' (precision - 1) Hs1 ltac:(lia) D3 ltac:(lia)) as (m & p & ds & E & A2 & F2 & L2 & (x'' & X1 & X2 & X3)).
      exists m, p, ((48 + d) :: ds). split; [exact E|].
      split; [change ((48 + d) :: ds) with ([48 + d] ++ ds); eapply appended_trans; eassumption|].
      split; [apply Forall_cons; [unfold is_digit; lia|exact F2]|].
      split; [rewrite zlen_cons; lia|].
      exists x''. split; [exact X1|].
      assert (Hh : IZR (horner 0 ((48 + d) :: ds)) = (IZR d * 10 ^ length ds + IZR (horner 0 ds))%R).
      { cbn [horner]. rewrite horner_acc. rewrite plus_IZR, mult_IZR, pow10_IZR. do 2 f_equal. f_equal. lia. }
      rewrite Hh. cbn [length pow]. set (P := (10 ^ length ds)%R) in *.
      assert (HP : (0 < P)%R) by (apply pow_lt; lra).
      split.
      * replace (IZR d * P + IZR (horner 0 ds) + x'' - x * (10 * P))%R
          with (P * (IZR d + x' - 10 * x) + (IZR (horner 0 ds) + x'' - x' * P))%R by ring.
        apply Rle_trans with (1 := Rabs_triang _ _). rewrite Rabs_mult, (Rabs_pos_eq P) by lra.
        apply Rle_trans with (P * / 2097152 + (P - 1) / 9 * / 2097152)%R.
        -- apply Rplus_le_compat; [|exact X2]. apply Rmult_le_compat_l; [lra|exact D4].
        -- lra.
      * intros Hk. destruct (D5 Hk) as [D6 D7]. specialize (X3 D7).
        replace (IZR d * P + IZR (horner 0 ds) + x'')%R with (IZR d * P + (IZR (horner 0 ds) + x''))%R by ring.
        rewrite X3. replace (x * (10 * P))%R with ((10 * x) * P)%R by ring. rewrite <- D6. ring.
    + exists (mem s), (pos s), []. split; [reflexivity|]. split; [apply appended_nil; exact Hs|].
      split; [apply Forall_nil|]. split; [rewrite zlen_nil; lia|]. apply Base0, Hf.
Qed.

Lemma f2i_ok v : fin v = true -> (-2147483649 < R32 v < 2147483648)%R -> f2i v = Ok (Ztrunc (R32 v)).
Proof.
  intros Hf H. unfold f2i. rewrite Hf, Btrunc_Ztrunc. apply chk_ok. unfold INT_MIN, INT_MAX.
  destruct (Rle_or_lt 0 (R32 v)) as [H0|H0].
  - rewrite Ztrunc_floor by exact H0. pose proof (Zfloor_lb (R32 v)). pose proof (Zfloor_lub 0 (R32 v) H0).
    assert (Zfloor (R32 v) < 2147483648) by (apply lt_IZR; lra). lia.
  - rewrite Ztrunc_ceil by lra. pose proof (Zceil_ub (R32 v)). pose proof (Zceil_glb 0 (R32 v) ltac:(lra)).
    assert (-2147483649 < Zceil (R32 v)) by (apply lt_IZR; lra). lia.
Qed.
Lemma f2i_ub v : ~ (fin v = true /\ (-2147483649 < R32 v < 2147483648)%R) -> f2i v = UB.
Proof.
  intros H. unfold f2i. destruct (fin v) eqn:Hf; [|reflexivity]. rewrite Btrunc_Ztrunc. unfold chk.
  destruct (in_int (Ztrunc (R32 v))) eqn:E; [|reflexivity]. exfalso. apply H. split; [reflexivity|].
  apply in_int_true in E. unfold INT_MIN, INT_MAX in E. destruct (Rle_or_lt 0 (R32 v)) as [H0|H0].
  - rewrite Ztrunc_floor in E by exact H0. pose proof (Zfloor_ub (R32 v)).
    assert (IZR (Zfloor (R32 v)) <= IZR 2147483647)%R by (apply IZR_le; lia). lra.
  - rewrite Ztrunc_ceil in E by lra. pose proof (Zceil_lb (R32 v)).
    assert (IZR (-2147483648) <= IZR (Zceil (R32 v)))%R by (apply IZR_le; lia). lra.
Qed.

Definition in_int_range (v : binary32) : Prop := fin v = true /\ (-2147483649 < R32 v < 2147483648)%R.

Lemma insFloat_ub v junk s : ~ in_int_range v -> insFloat v junk s = UB.
Proof. intros H. unfold insFloat, toChars. rewrite f2i_ub by exact H. reflexivity. Qed.

(** the integer part fits *)
Lemma insFloat_fits v junk s : inside s -> in_int_range v ->
  let n := Ztrunc (R32 v) in
  zlen (decimal n) <= room s ->
  exists s' ds, insFloat v junk s = Ok s' /\ same_format s s' /\ Forall is_digit ds /\
    let left := room s - zlen (decimal n) in
    if (0 <? u32 (prec s)) && (0 <? left)
    then appended s (decimal n ++ 46 :: ds) s' /\ zlen ds = Z.min (u32 (prec s)) (left - 1) /\
         approx (Rabs (R32 v) - Rabs (IZR n)) ds /\ ((8 <= Rabs (R32 v))%R -> exists k, (Rabs (R32 v) - Rabs (IZR n) = IZR k * / 1048576)%R)
    else appended s (decimal n) s' /\ ds = [].
Proof.
  intros Hs [Hf Hv] n Hr. unfold insFloat, toChars. rewrite f2i_ok by assumption. fold n. cbn [bind].
  pose proof Hs as Hs'. pose proof Hr as Hr'. unfold inside, room, size, capacity in Hs', Hr'.
  unfold to_chars. replace (pos s + zlen (decimal n) <=? zlen (mem s)) with true by lia.
  pose proof (zlen_nonneg (decimal n)) as Hd0. set (t := decimal n) in *. rewrite wr_slice_ok by lia. cbn [bind].
  set (s1 := Bo (blit (mem s) (pos s) t) (pos s + zlen t) (prec s) (wid s) (fillc s)).
  assert (A1 : appended s t s1) by (apply appended_blit; assumption).
  destruct (appended_inside _ _ _ Hs A1) as [Hs1 Hr1].
  destruct (frac_start v Hf) as [Fr Fx]. fold n in Fr, Fx.
  assert (Hp0 : 0 <= u32 (prec s) < 4294967296) by (unfold u32; apply Z.mod_pos_bound; lia).
  cbn [andb]. cbv zeta. replace (pos s + zlen t <? zlen (mem s)) with (0 <? room s - zlen t)
    by (unfold room, capacity, size; destruct (Z.ltb_spec (pos s + zlen t) (zlen (mem s))); lia).
  destruct (Z.ltb_spec 0 (u32 (prec s))) as [P|P]; cbn [andb].
  - destruct (Z.ltb_spec 0 (room s - zlen t)) as [L|L].
    + change (blit (mem s) (pos s) t) with (mem s1). change (pos s + zlen t) with (pos s1).
      assert (Hl : zlen (mem s1) = zlen (mem s)) by apply A1. pose proof Hs1 as Hs1'. unfold inside, size, capacity in Hs1'.
      assert (Hr1' : 1 <= room s1) by lia. pose proof Hr1' as Hr1''. unfold room, capacity, size in Hr1''.
      rewrite wr_app by lia. cbn [bind].
      set (s2 := Bo (blit (mem s1) (pos s1) [46]) (pos s1 + 1) (prec s) (wid s) (fillc s)).
      assert (A2 : appended s1 [46] s2) by (apply appended_char; assumption).
      destruct (appended_inside _ _ _ Hs1 A2) as [Hs2 Hr2]. change (zlen [46]) with 1 in Hr2.
      assert (Erm : Z.to_nat (zlen (mem s) - (pos s1 + 1)) = Z.to_nat (room s2)).
      { f_equal. unfold room, capacity, size. assert (zlen (mem s2) = zlen (mem s1)) by apply A2. cbn [pos s2]. lia. }
      destruct (fracLoop_ok _ s2 _ _ (u32 (prec s)) Hs2 Erm Fr ltac:(lia)) as (m & p & ds & E & A3 & F3 & L3 & X3).
        change (mem s2) with (blit (mem s1) (pos s1) [46]) in E. change (pos s2) with (pos s1 + 1) in E.
        rewrite E. cbn [bind]. eexists. exists ds. split; [reflexivity|]. split; [repeat split|]. split; [exact F3|].
        split; [|split; [lia|split; [exact X3|exact Fx]]].
        change (46 :: ds) with ([46] ++ ds). eapply appended_trans; [exact A1|]. eapply appended_trans; [exact A2|exact A3].
    + cbn [bind]. eexists. exists []. split; [reflexivity|]. split; [repeat split|]. split; [apply Forall_nil|]. split; [exact A1|reflexivity].
  - cbn [bind]. eexists. exists []. split; [reflexivity|]. split; [repeat split|]. split; [apply Forall_nil|]. split; [exact A1|reflexivity].
Qed.

(** the integer part does not fit: the rest of the buffer becomes visible with unspecified contents *)
Lemma insFloat_full v junk s : inside s -> in_int_range v -> room s < zlen (decimal (Ztrunc (R32 v))) ->
  exists s' t, insFloat v junk s = Ok s' /\ same_format s s' /\ appended s t s' /\ zlen t = room s.
Proof.
  intros Hs [Hf Hv] Hr. unfold insFloat, toChars. rewrite f2i_ok by assumption. cbn [bind].
  pose proof Hs as Hs'. pose proof Hr as Hr'. unfold inside, room, size, capacity in Hs', Hr'.
  unfold to_chars. set (t := decimal _) in *. replace (pos s + zlen t <=? zlen (mem s)) with false by lia.
  set (j := firstn (Z.to_nat (zlen (mem s) - pos s)) junk).
  assert (Hj : zlen j <= zlen (mem s) - pos s) by (unfold j, zlen; rewrite firstn_length; unfold zlen in *; lia).
  pose proof (zlen_nonneg j). rewrite wr_slice_ok by lia. cbn [bind andb].
  eexists. exists (slice (blit (mem s) (pos s) j) (pos s) (room s)). split; [reflexivity|]. split; [repeat split|].
  unfold room, appended, asStringView, size, capacity. cbn [mem pos].
  rewrite zlen_slice by (rewrite ?zlen_blit; lia). rewrite zlen_blit by lia. split; [|reflexivity]. repeat split; try lia.
  replace (zlen (mem s)) with (pos s + (zlen (mem s) - pos s)) at 1 by lia. rewrite slice_app_split by lia.
  rewrite slice_blit_pre by lia. reflexivity.
Qed.
