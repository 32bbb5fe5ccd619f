(** C72: scaling, division, matrices and conversion. *)
From Verif Require Import Base M_Geometry M_GeometryMore S_Graphics S_Paint L_Geometry.

(** [q] is [a] divided by [k], rounded towards zero *)
Definition truncated (a k q : Z) : Prop := Z.abs (a - q * k) < Z.abs k /\ Z.abs (q * k) <= Z.abs a.

Lemma truncated_quot a k q : k <> 0 -> truncated a k q <-> q = Z.quot a k.
Proof.
  intros Hk.
  assert (E : truncated a k (Z.quot a k)).
  { unfold truncated. pose proof (Z.quot_rem a k Hk) as Q. pose proof (Z.rem_bound_abs a k Hk) as R.
    split; [replace (a - Z.quot a k * k) with (Z.rem a k) by lia; exact R|].
    rewrite Z.abs_mul. rewrite <- Z.quot_abs by exact Hk.
    pose proof (Z.quot_rem (Z.abs a) (Z.abs k) ltac:(lia)) as Q2.
    pose proof (Z.rem_nonneg (Z.abs a) (Z.abs k) ltac:(lia) ltac:(lia)). lia. }
  split; [|intros ->; exact E].
  destruct E as [E1 E2]. intros [H1 H2]. set (p := Z.quot a k) in *. clearbody p. nia.
Qed.
Lemma idiv_iff a k q : idiv a k = Ok q <-> k <> 0 /\ truncated a k q /\ is_int q.
Proof.
  unfold idiv, is_int. destruct (Z.eqb_spec k 0) as [->|Hk]; [split; [discriminate|intros [H _]; congruence]|].
  rewrite truncated_quot by exact Hk. split.
  - intros H. inv_ok. auto.
  - intros (_ & -> & H). apply chk_ok. exact H.
Qed.

(** scaling a size: both products, if they are ints *)
Theorem C72_scale : forall s k q,
  size_mul s k = Ok q <-> q = (fst s * k, snd s * k) /\ is_int (fst s * k) /\ is_int (snd s * k).
Proof.
  intros s k q. unfold size_mul, is_int. split.
  - intros H. inv_ok. auto.
  - intros [-> [H1 H2]]. rewrite !chk_ok by assumption. reflexivity.
Qed.
Print Assumptions C72_scale.

(** dividing a size: both quotients rounded towards zero *)
Theorem C72_divide : forall s k q,
  size_div s k = Ok q <->
  k <> 0 /\ truncated (fst s) k (fst q) /\ truncated (snd s) k (snd q) /\ is_int (fst q) /\ is_int (snd q).
Proof.
  intros s k q. unfold size_div. split.
  - intros H. apply bind_inv in H. destruct H as (a & A & H). apply bind_inv in H. destruct H as (b & B & H).
    apply Ok_inj in H. subst q. cbn [fst snd]. apply idiv_iff in A, B. tauto.
  - intros (Hk & A & B & IA & IB). rewrite (proj2 (idiv_iff _ _ (fst q))) by tauto. cbn [bind].
    rewrite (proj2 (idiv_iff _ _ (snd q))) by tauto. destruct q; reflexivity.
Qed.
Print Assumptions C72_divide.

(** when it is undefined: a zero divisor, or the smallest int by -1 *)
Theorem C72_divide_undefined : forall s k, is_int (fst s) -> is_int (snd s) -> is_int k ->
  (size_div s k = UB <-> k = 0 \/ k = -1 /\ (fst s = INT_MIN \/ snd s = INT_MIN)).
Proof.
  assert (D : forall a k, is_int a -> is_int k -> idiv a k = UB <-> k = 0 \/ k = -1 /\ a = INT_MIN).
  { intros a k Ha Hk. unfold idiv. destruct (Z.eqb_spec k 0) as [->|Hn]; [tauto|].
    assert (Q : Z.abs (Z.quot a k) <= Z.abs a /\ (k <> -1 -> Z.abs (Z.quot a k) < 2147483648 \/ Z.quot a k = a)).
    { destruct (proj2 (truncated_quot a k _ Hn) eq_refl) as [T1 T2]. rewrite Z.abs_mul in T2.
      split; [nia|]. intros K. destruct (Z.eq_dec k 1) as [->|K1]; [right; apply Z.quot_1_r|]. left.
      unfold is_int, INT_MIN, INT_MAX in *. nia. }
    unfold chk. destruct (in_int (Z.quot a k)) eqn:I.
    - split; [discriminate|]. intros [E|[-> ->]]; [contradiction|]. discriminate I.
    - split; [|reflexivity]. intros _. right. destruct (Z.eq_dec k (-1)) as [->|K].
      + split; [reflexivity|]. change (-1) with (Z.opp 1) in I. rewrite Z.quot_opp_r, Z.quot_1_r in I by lia.
        rewrite <- not_true_iff_false, in_int_true in I. unfold is_int, INT_MIN, INT_MAX in *. lia.
      + exfalso. rewrite <- not_true_iff_false, in_int_true in I. destruct Q as [_ Q]. specialize (Q K).
        unfold is_int, INT_MIN, INT_MAX in *. lia. }
  intros s k H1 H2 Hk. unfold size_div. pose proof (D (fst s) k H1 Hk) as D1. pose proof (D (snd s) k H2 Hk) as D2.
  assert (NF : forall a, idiv a k <> Fuel) by (intros a; unfold idiv, chk; destruct (_ =? _); [discriminate|]; destruct (in_int _); discriminate).
  pose proof (NF (fst s)). pose proof (NF (snd s)).
  destruct (idiv (fst s) k); destruct (idiv (snd s) k); cbn [bind]; try congruence;
    (split; [intros X; try discriminate X|intros X; try reflexivity]); try tauto.
  all: exfalso; assert (Y : forall A (x : A), Ok x <> UB) by discriminate; intuition (try discriminate).
Qed.
Print Assumptions C72_divide_undefined.

(** division undoes scaling *)
Theorem C72_scale_divide : forall s k t, is_int (fst s) -> is_int (snd s) -> k <> 0 ->
  size_mul s k = Ok t -> size_div t k = Ok s.
Proof.
  intros s k t H1 H2 Hk H. apply C72_scale in H. destruct H as [-> _]. apply C72_divide. cbn [fst snd].
  split; [exact Hk|]. unfold truncated. rewrite !Z.sub_diag. change (Z.abs 0) with 0. repeat (split; [split; lia|]). auto.
Qed.
Print Assumptions C72_scale_divide.

(** the matrix product: defined exactly if no intermediate value overflows; linear; and the matrices of
    the rotations turn by quarters *)
Theorem C72_matrix : forall m v q,
  mat_mul m v = Ok q <->
  q = (m0 m * fst v + m1 m * snd v, m2 m * fst v + m3 m * snd v) /\
  is_int (m0 m * fst v) /\ is_int (m1 m * snd v) /\ is_int (fst q) /\
  is_int (m2 m * fst v) /\ is_int (m3 m * snd v) /\ is_int (snd q).
Proof.
  intros m v q. unfold mat_mul, is_int. split.
  - intros H. inv_ok. tauto.
  - intros (-> & H). cbn [fst snd] in H. repeat (rewrite chk_ok by tauto; cbn [bind]). reflexivity.
Qed.
Print Assumptions C72_matrix.

Theorem C72_turns : forall w h r v, is_int (- fst v) -> is_int (- snd v) -> is_int (fst v) -> is_int (snd v) ->
  let m x := getTransformMatrix (mkCanvas w h x) in
  exists q, mat_mul (m r) v = Ok q /\ fst q * fst q + snd q * snd q = fst v * fst v + snd v * snd v /\
    match r with R0 => q = v | R90 => q = (- snd v, fst v) | R180 => q = (- fst v, - snd v) | R270 => q = (snd v, - fst v) end.
Proof.
  intros w h r v H1 H2 H3 H4 m. unfold m.
  destruct r; eexists; (split; [apply C72_matrix; cbn [getTransformMatrix rot m0 m1 m2 m3]; split; [reflexivity|];
    cbn [fst snd]; unfold is_int, INT_MIN, INT_MAX in *; lia|]); destruct v; cbn [fst snd]; (split; [nia|f_equal; lia]).
Qed.
Print Assumptions C72_turns.

(** converting a rectangle of another integer type: values that are ints are kept *)
Theorem C72_convert : forall r,
  is_int (fst (tl r)) -> is_int (snd (tl r)) -> is_int (fst (sz r)) -> is_int (snd (sz r)) -> rect_convert r = r.
Proof.
  intros [[x y] [w h]]. cbn [tl sz fst snd]. intros H1 H2 H3 H4. unfold rect_convert. cbn [tl sz fst snd].
  assert (E : forall z, is_int z -> to_int z = z).
  { intros z Hz. unfold to_int, is_int, INT_MIN, INT_MAX in *. rewrite Z.mod_small by lia. lia. }
  rewrite !E by assumption. reflexivity.
Qed.
Print Assumptions C72_convert.

(** and the others are changed by a multiple of 2^32 *)
Theorem C72_convert_wraps : forall z, is_int (to_int z) /\ exists k, to_int z = z + k * 2 ^ 32.
Proof.
  intros z. unfold to_int. pose proof (Z.mod_pos_bound (z + 2147483648) 4294967296 ltac:(lia)).
  split; [unfold is_int, INT_MIN, INT_MAX; lia|]. exists (- ((z + 2147483648) / 4294967296)).
  change (2 ^ 32) with 4294967296. pose proof (Z.div_mod (z + 2147483648) 4294967296 ltac:(lia)). lia.
Qed.
Print Assumptions C72_convert_wraps.

Example C72_case :
  size_mul (3, 4) 2 = Ok (6, 8) /\ size_mul (1073741824, 1) 2 = UB /\ size_div (12, 10) 2 = Ok (6, 5) /\
  size_div (-7, 7) 2 = Ok (-3, 3) /\ size_div (1, 1) 0 = UB /\ size_div (INT_MIN, 0) (-1) = UB /\
  mat_mul (mkMat 2 1 (-3) 0) (2, 3) = Ok (7, -6) /\
  rect_convert (mkRect (255, 4294967295) (2, 3)) = mkRect (255, -1) (2, 3).
Proof. repeat split. Qed.
