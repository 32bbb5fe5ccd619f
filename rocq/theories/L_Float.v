(** binary32 facts behind the float formatter: which operations are exact, digit range, error. *)
From Coq Require Import Reals Lra ZArith Lia.
From Flocq Require Import Core IEEE754.Binary IEEE754.Bits.
From Verif Require Import Base M_BufferedOut.
Open Scope R_scope.

Notation fmt := (generic_format radix2 (SpecFloat.fexp 24 128)).
Notation rnd := (round radix2 (SpecFloat.fexp 24 128) ZnearestE).
Notation R32 := (B2R 24 128).
Notation fin := (is_finite 24 128).
#[local] Instance p24 : Prec_gt_0 24. Proof. reflexivity. Qed.
#[local] Instance vexp : Valid_exp (SpecFloat.fexp 24 128) := fexp_correct 24 128 p24.

Lemma fmt_intro (m e : Z) : (Z.abs m < 2 ^ 24)%Z -> (-149 <= e)%Z -> fmt (IZR m * bpow radix2 e).
Proof.
  intros Hm He. apply (generic_format_FLT radix2 (-149) 24).
  apply (FLT_spec radix2 (-149) 24 _ (Float radix2 m e)); [reflexivity|exact Hm|exact He].
Qed.
Lemma fmt_elim x : fmt x -> exists m e, x = IZR m * bpow radix2 e /\ (Z.abs m < 2 ^ 24)%Z /\ (-149 <= e)%Z.
Proof.
  intros H. destruct (FLT_format_generic radix2 (-149) 24 x H) as [[m e] E H1 H2].
  exists m, e. repeat split; assumption.
Qed.
Lemma fmt_IZR n : (Z.abs n < 2 ^ 24)%Z -> fmt (IZR n).
Proof. intros H. replace (IZR n) with (IZR n * bpow radix2 0) by (cbn; ring). apply fmt_intro; [exact H|lia]. Qed.

Lemma bpow_IZR e : (0 <= e)%Z -> bpow radix2 e = IZR (2 ^ e).
Proof. intros H. rewrite <- IZR_Zpower by exact H. reflexivity. Qed.
(** a number with a negative exponent, over a common power of two *)

(** the integer part of a float is a float, and so is the fraction *)
Lemma fmt_parts x : fmt x -> 0 <= x -> fmt (IZR (Zfloor x)) /\ fmt (x - IZR (Zfloor x)).
Proof.
  intros Hx H0. destruct (fmt_elim x Hx) as (m & e & E & Hm & He).
  destruct (Z.le_gt_cases 0 e) as [H|H].
  - assert (Ei : x = IZR (m * 2 ^ e)) by (rewrite mult_IZR, <- bpow_IZR by exact H; exact E).
    rewrite Ei, Zfloor_IZR, <- Ei. split; [exact Hx|]. replace (x - x) with (IZR 0) by ring.
    apply fmt_IZR. reflexivity.
  - assert (Pos : 0 < bpow radix2 e) by apply bpow_gt_0.
    set (q := (2 ^ (- e))%Z). assert (Hq : IZR q * bpow radix2 e = 1).
    { unfold q. rewrite <- bpow_IZR by lia. rewrite <- bpow_plus. replace (- e + e)%Z with 0%Z by lia. reflexivity. }
    assert (Hq0 : (0 < q)%Z) by (unfold q; apply Z.pow_pos_nonneg; lia).
    assert (Hm0 : (0 <= m)%Z).
    { apply le_IZR. apply Rmult_le_reg_r with (bpow radix2 e); [exact Pos|]. rewrite <- E. lra. }
    assert (Ef : Zfloor x = (m / q)%Z).
    { apply Zfloor_imp. rewrite E. pose proof (Z.mul_div_le m q Hq0). pose proof (Z.mul_succ_div_gt m q Hq0).
      split.
      - replace (IZR (m / q)) with (IZR (q * (m / q)) * bpow radix2 e) by (rewrite mult_IZR; transitivity (IZR (m / q) * (IZR q * bpow radix2 e)); [ring|rewrite Hq; ring]).
        apply Rmult_le_compat_r; [lra|]. apply IZR_le. lia.
      - replace (IZR (m / q + 1)) with (IZR (q * Z.succ (m / q)) * bpow radix2 e).
        + apply Rmult_lt_compat_r; [exact Pos|]. apply IZR_lt. lia.
        + rewrite mult_IZR. replace (Z.succ (m / q)) with (m / q + 1)%Z by lia.
          transitivity (IZR (m / q + 1) * (IZR q * bpow radix2 e)); [ring|rewrite Hq; ring]. }
    rewrite Ef. pose proof (Z.div_le_upper_bound m q m Hq0 ltac:(nia)).
    pose proof (Z.div_pos m q Hm0 Hq0). split.
    + apply fmt_IZR. lia.
    + replace (x - IZR (m / q)) with (IZR (m mod q) * bpow radix2 e).
      * apply fmt_intro; [|exact He]. pose proof (Z.mod_pos_bound m q Hq0). pose proof (Z.mod_le m q Hm0 Hq0). lia.
      * rewrite Z.mod_eq by lia. rewrite minus_IZR, mult_IZR, E.
        transitivity (IZR m * bpow radix2 e - IZR (m / q) * (IZR q * bpow radix2 e)); [ring|rewrite Hq; ring].
Qed.

Lemma frac_range x : 0 <= x - IZR (Zfloor x) < 1.
Proof. pose proof (Zfloor_lb x). pose proof (Zfloor_ub x). lra. Qed.

(** ** conversions *)
Lemma Btrunc_Ztrunc v : Btrunc 24 128 v = Ztrunc (R32 v).
Proof.
  apply eq_IZR. rewrite (Btrunc_correct 24 128 ltac:(reflexivity)).
  unfold round, scaled_mantissa, cexp, FIX_exp, F2R. cbn [Fnum Fexp]. cbn [Z.opp bpow]. rewrite !Rmult_1_r. reflexivity.
Qed.
Lemma i2f_exact n : fmt (IZR n) -> Rabs (IZR n) < bpow radix2 128 -> R32 (i2f n) = IZR n /\ fin (i2f n) = true.
Proof.
  intros H1 H2. unfold i2f.
  pose proof (binary_normalize_correct 24 128 eq_refl eq_refl BinarySingleNaN.mode_NE n 0 false) as C.
  replace (F2R {| Fnum := n; Fexp := 0 |}) with (IZR n) in C by (unfold F2R; cbn; ring).
  cbn [BinarySingleNaN.round_mode] in C. rewrite (round_generic radix2 _ ZnearestE (IZR n) H1) in C.
  rewrite Rlt_bool_true in C by exact H2. destruct C as (C1 & C2 & _). split; assumption.
Qed.
Lemma i2f_small n : (Z.abs n < 2 ^ 24)%Z -> R32 (i2f n) = IZR n /\ fin (i2f n) = true.
Proof.
  intros H. apply i2f_exact; [apply fmt_IZR; exact H|].
  rewrite <- abs_IZR. apply Rlt_trans with (IZR (2 ^ 24)); [apply IZR_lt; exact H|].
  rewrite bpow_IZR by lia. apply IZR_lt. reflexivity.
Qed.

Lemma minus_exact a b : fin a = true -> fin b = true -> fmt (R32 a - R32 b) -> Rabs (R32 a - R32 b) < bpow radix2 128 ->
  R32 (b32_minus BinarySingleNaN.mode_NE a b) = R32 a - R32 b /\ fin (b32_minus BinarySingleNaN.mode_NE a b) = true.
Proof.
  intros Fa Fb H1 H2. unfold b32_minus.
  match goal with |- R32 (Bminus _ _ ?p ?q ?nan ?m _ _) = _ /\ _ => pose proof (Bminus_correct 24 128 p q nan m a b Fa Fb) as C end.
  cbn [BinarySingleNaN.round_mode] in C. rewrite (round_generic radix2 _ ZnearestE _ H1) in C.
  rewrite Rlt_bool_true in C by exact H2. destruct C as (C1 & C2 & _). split; assumption.
Qed.
Lemma mult_round a b : fin a = true -> fin b = true -> Rabs (rnd (R32 a * R32 b)) < bpow radix2 128 ->
  R32 (b32_mult BinarySingleNaN.mode_NE a b) = rnd (R32 a * R32 b) /\ fin (b32_mult BinarySingleNaN.mode_NE a b) = true.
Proof.
  intros Fa Fb H. unfold b32_mult.
  match goal with |- R32 (Bmult _ _ ?p ?q ?nan ?m _ _) = _ /\ _ => pose proof (Bmult_correct 24 128 p q nan m a b) as C end.
  cbn [BinarySingleNaN.round_mode] in C. rewrite Rlt_bool_true in C by exact H. rewrite Fa, Fb in C.
  destruct C as (C1 & C2 & _). split; assumption.
Qed.

(** ** one digit step *)
Lemma pow_128_big x : Rabs x <= 16 -> Rabs x < bpow radix2 128.
Proof. intros H. apply Rle_lt_trans with (1 := H). rewrite bpow_IZR by lia. apply (IZR_lt 16). reflexivity. Qed.
Lemma fmt_lt_1 f : fmt f -> f < 1 -> f <= 1 - bpow radix2 (-24).
Proof.
  intros H1 H2. replace (1 - bpow radix2 (-24)) with (pred radix2 (SpecFloat.fexp 24 128) (bpow radix2 0)).
  - apply pred_ge_gt; [exact vexp|exact H1| |exact H2]. apply (fmt_IZR 1). reflexivity.
  - rewrite pred_bpow. reflexivity.
Qed.
Lemma bp24 : bpow radix2 (-24) = / 16777216.
Proof. reflexivity. Qed.
Lemma round_err x : 0 <= x < 10 -> Rabs (rnd x - x) <= / 2097152.
Proof.
  intros H. apply Rle_trans with (1 := error_le_half_ulp radix2 _ _ x).
  assert (U : ulp radix2 (SpecFloat.fexp 24 128) x <= bpow radix2 (-20)).
  { destruct (Req_dec x 0) as [->|Hx].
    - change (SpecFloat.fexp 24 128) with (FLT_exp (-149) 24). rewrite ulp_FLT_0 by exact p24. apply bpow_le. lia.
    - rewrite ulp_neq_0 by exact Hx. apply bpow_le. unfold cexp, SpecFloat.fexp, SpecFloat.emin.
      assert ((mag radix2 x <= 4)%Z); [|lia]. apply mag_le_bpow; [exact Hx|]. rewrite Rabs_pos_eq by lra.
      change (bpow radix2 4) with 16. lra. }
  change (bpow radix2 (-20)) with (/ 1048576) in U. lra.
Qed.
Lemma round_step f : fmt f -> 0 <= f < 1 -> 0 <= rnd (f * 10) < 10.
Proof.
  intros Hf H. pose proof (fmt_lt_1 f Hf ltac:(lra)) as Hp. rewrite bp24 in Hp. split.
  - apply round_ge_generic; [exact vexp|apply valid_rnd_N|apply (fmt_IZR 0); reflexivity|lra].
  - pose proof (round_err (f * 10) ltac:(lra)) as E. apply Rabs_le_inv in E. lra.
Qed.
Lemma round_exact f k : f = IZR k * / 1048576 -> 0 <= f < 1 -> rnd (f * 10) = f * 10.
Proof.
  intros E H. apply round_generic; [apply valid_rnd_N|].
  replace (f * 10) with (IZR (10 * k) * bpow radix2 (-20)).
  - apply fmt_intro; [|lia]. assert (0 <= k < 1048576)%Z; [|lia].
    split; [apply le_IZR|apply lt_IZR]; subst f; lra.
  - rewrite mult_IZR. change (bpow radix2 (-20)) with (/ 1048576). rewrite E. ring.
Qed.

Lemma ten_exact : R32 (i2f 10) = 10 /\ fin (i2f 10) = true.
Proof. apply i2f_small. reflexivity. Qed.

(** [is_frac f x]: the float [f] is the finite number [x], a fraction *)
Definition is_frac (f : binary32) (x : R) : Prop := fin f = true /\ R32 f = x /\ 0 <= x < 1.

Lemma f2i_pos f : fin f = true -> 0 <= R32 f < 10 -> f2i f = Ok (Zfloor (R32 f)) /\ (0 <= Zfloor (R32 f) <= 9)%Z.
Proof.
  intros Hf H. unfold f2i. rewrite Hf, Btrunc_Ztrunc, Ztrunc_floor by lra.
  assert ((0 <= Zfloor (R32 f) <= 9)%Z).
  { pose proof (Zfloor_lb (R32 f)). pose proof (Zfloor_ub (R32 f)). split.
    - apply Zfloor_lub. lra.
    - assert ((Zfloor (R32 f) < 10)%Z); [|lia]. apply lt_IZR. lra. }
  split; [|assumption]. apply chk_ok. unfold INT_MIN, INT_MAX. lia.
Qed.

Lemma digit_step f x : is_frac f x -> exists d x',
  let f1 := b32_mult BinarySingleNaN.mode_NE f (i2f 10) in
  f2i f1 = Ok d /\ (0 <= d <= 9)%Z /\
  is_frac (b32_minus BinarySingleNaN.mode_NE f1 (i2f d)) x' /\
  Rabs (IZR d + x' - 10 * x) <= / 2097152 /\
  ((exists k, x = IZR k * / 1048576) -> IZR d + x' = 10 * x /\ exists k, x' = IZR k * / 1048576).
Proof.
  intros (Hf & Hx & H). destruct ten_exact as [T1 T2].
  assert (Fm : fmt x) by (rewrite <- Hx; apply generic_format_B2R).
  pose proof (round_step x Fm H) as B.
  destruct (mult_round f (i2f 10) Hf T2) as [M1 M2].
  { rewrite Hx, T1. apply pow_128_big. rewrite Rabs_pos_eq; lra. }
  rewrite Hx, T1 in M1. cbv zeta. set (f1 := b32_mult _ f (i2f 10)) in *. set (y := rnd (x * 10)) in *.
  destruct (f2i_pos f1 M2 ltac:(rewrite M1; lra)) as [D1 D2]. rewrite M1 in D1, D2.
  assert (Fy : fmt y) by (rewrite <- M1; apply generic_format_B2R).
  destruct (fmt_parts y Fy ltac:(lra)) as [P1 P2]. pose proof (frac_range y) as Fr.
  destruct (i2f_small (Zfloor y) ltac:(lia)) as [I1 I2].
  destruct (minus_exact f1 (i2f (Zfloor y)) M2 I2) as [S1 S2].
  { rewrite M1, I1. exact P2. }
  { rewrite M1, I1. apply pow_128_big. rewrite Rabs_pos_eq; lra. }
  rewrite M1, I1 in S1. exists (Zfloor y), (y - IZR (Zfloor y)).
  split; [exact D1|]. split; [exact D2|]. split; [split; [exact S2|split; [exact S1|exact Fr]]|]. split.
  - replace (IZR (Zfloor y) + (y - IZR (Zfloor y)) - 10 * x) with (y - x * 10) by ring. apply round_err. lra.
  - intros (k & Ek). assert (Ey : y = x * 10) by (apply (round_exact x k Ek H)). split; [rewrite Ey; ring|].
    exists (10 * k - 1048576 * Zfloor y)%Z. rewrite minus_IZR, !mult_IZR, Ey, Ek. field.
Qed.

(** ** the first fraction: |v| - |float(int(v))| *)
Lemma frac_start v : fin v = true -> 
  let n := Ztrunc (R32 v) in
  is_frac (b32_minus BinarySingleNaN.mode_NE (b32_abs v) (b32_abs (i2f n))) (Rabs (R32 v) - Rabs (IZR n)) /\
  (8 <= Rabs (R32 v) -> exists k, Rabs (R32 v) - Rabs (IZR n) = IZR k * / 1048576).
Proof.
  intros Hf n. set (a := Rabs (R32 v)).
  assert (Ha : 0 <= a) by apply Rabs_pos.
  assert (Fa : fmt a) by (apply generic_format_abs, generic_format_B2R).
  assert (En : Rabs (IZR n) = IZR (Zfloor a)).
  { unfold n, a. rewrite <- abs_IZR, <- Ztrunc_abs. rewrite Ztrunc_floor by apply Rabs_pos. reflexivity. }
  destruct (fmt_parts a Fa Ha) as [P1 P2]. pose proof (frac_range a) as Fr.
  assert (Big : a < bpow radix2 128) by apply abs_B2R_lt_emax.
  assert (Fn : fmt (IZR n)).
  { apply generic_format_abs_inv. rewrite En. exact P1. }
  destruct (i2f_exact n Fn) as [I1 I2].
  { rewrite En. lra. }
  rewrite En. split.
  - assert (A1 : R32 (b32_abs v) = a) by (unfold b32_abs; rewrite B2R_Babs; reflexivity).
    assert (A2 : R32 (b32_abs (i2f n)) = IZR (Zfloor a)) by (unfold b32_abs; rewrite B2R_Babs, I1; exact En).
    assert (F1 : fin (b32_abs v) = true) by (unfold b32_abs; rewrite is_finite_Babs; exact Hf).
    assert (F2 : fin (b32_abs (i2f n)) = true) by (unfold b32_abs; rewrite is_finite_Babs; exact I2).
    destruct (minus_exact _ _ F1 F2) as [S1 S2].
    { rewrite A1, A2. exact P2. }
    { rewrite A1, A2. apply pow_128_big. rewrite Rabs_pos_eq; lra. }
    split; [exact S2|]. split; [rewrite S1, A1, A2; reflexivity|exact Fr].
  - intros H8. (* a = m * 2^e with canonical exponent e >= -20 *)
    assert (Hx : a <> 0) by lra.
    pose proof (scaled_mantissa_mult_bpow radix2 (SpecFloat.fexp 24 128) a) as E.
    rewrite scaled_mantissa_generic in E by exact Fa. set (m := Ztrunc _) in E.
    assert (He : (-20 <= cexp radix2 (SpecFloat.fexp 24 128) a)%Z).
    { unfold cexp, SpecFloat.fexp. assert ((4 <= mag radix2 a)%Z); [|lia].
      apply mag_ge_bpow. change (bpow radix2 (4 - 1)) with 8. rewrite Rabs_pos_eq; lra. }
    set (c := cexp _ _ a) in *. exists (m * 2 ^ (c + 20) - 1048576 * Zfloor a)%Z.
    rewrite minus_IZR, !mult_IZR. rewrite <- bpow_IZR by lia. rewrite bpow_plus.
    change (bpow radix2 20) with 1048576. replace a with (IZR m * bpow radix2 c) at 1 by exact E. field.
Qed.
