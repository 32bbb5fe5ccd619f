(** Lemmas about drawCircle: which pixels the midpoint loop visits. *)
From Verif Require Import Base S_Graphics M_Geometry M_Canvas S_Paint S_Ranges L_Geometry L_Canvas.

Lemma error_fits_bound r : error_fits r -> r <= 715829427.
Proof.
  intros H. destruct (Z_le_dec r 715829427) as [L|L]; [exact L|]. specialize (H 46341 (r - 2) ltac:(lia) ltac:(lia)). unfold INT_MAX in H. lia.
Qed.
Lemma error_fits_small r : 1 <= r <= 715827882 -> error_fits r.
Proof.
  intros Hr v y Hv Hy H. assert (y <= r - 1) by nia. unfold INT_MAX. lia.
Qed.

Section Circle.
Variable r : Z.
Hypothesis Hr : 1 <= r <= 715829427.
Hypothesis Hfit : error_fits r.

(** the pixel (X,y), X > 0, is the one of row [y] nearest to the circle *)
Definition near1 (X y : Z) : Prop := X * X - X < r * r - y * y <= X * X + X.
Definition oct1 (X y : Z) : Prop := 0 <= y < X /\ near1 X y.
Definition oct2 (X y : Z) : Prop := 0 <= X < y /\ near1 y X.
Definition diag (X y : Z) : Prop := X = y /\ 1 <= X /\ - X <= X * X + y * y - r * r <= X - 2.
Definition visited (X y : Z) : Prop := oct1 X y \/ diag X y \/ oct2 X y.

Definition errof (X y : Z) : Z := X * X + y * y - r * r - 2 * X + 2 * y + 2.

Lemma near1_le X y : 0 <= y -> 0 <= X -> near1 X y -> X <= r.
Proof. unfold near1. intros. nia. Qed.
Lemma near1_unique X X' y : 0 <= X -> 0 <= X' -> near1 X y -> near1 X' y -> X = X'.
Proof. unfold near1. intros. nia. Qed.

Lemma oct1_low X y : oct1 X y -> 4 * y <= 3 * r.
Proof. unfold oct1, near1. intros [A [B C]]. nia. Qed.
Lemma diag_low X y : diag X y -> 4 * y <= 3 * r.
Proof. unfold diag. intros [-> [A [B C]]]. nia. Qed.
Lemma err_low X y : 0 <= y -> 0 <= X -> near1 X y -> -2147483648 <= errof X y.
Proof.
  intros Hy HX [H1 H2]. unfold errof. pose proof (near1_le X y Hy HX (conj H1 H2)) as HXr. destruct (Z.eq_dec X r) as [->|Hne]; [nia|].
  assert (A : r <= y * y) by nia. destruct (Z_le_dec 2400 y) as [L|L]; [lia|]. assert (r <= 5760000) by nia. lia.
Qed.
Lemma step1 X y :
  oct1 X y ->
  exists X', circleStep (- X) y (errof X y) = Ok (- X', y + 1, errof X' (y + 1)) /\
    (if X =? y + 1 then X' = X - 1
     else (X' = X \/ X' = X - 1) /\ (y + 1 < X' /\ oct1 X' (y + 1) \/ y + 1 = X' /\ diag X' (y + 1))).
Proof.
  intros O. pose proof (oct1_low X y O) as Hlow. destruct O as [Hy [H1 H2]]. pose proof (near1_le X y ltac:(lia) ltac:(lia) (conj H1 H2)) as HX.
  pose proof (err_low X y ltac:(lia) ltac:(lia) (conj H1 H2)) as HE. unfold errof in HE.
  assert (HE2 : - X < X * X + y * y - r * r - 2 * X + 2 * y + 2 -> -2147483648 <= X * X + y * y - r * r - 2 * X + 2 * y + 2 + ((y + 1) * 2 + 1) + ((- X + 1) * 2 + 1)).
  { intros G. destruct (Z_le_dec X (y + 2)) as [L|L]; [lia|].
    pose proof (err_low (X - 1) (y + 1) ltac:(lia) ltac:(lia)) as K. unfold near1, errof in K. specialize (K ltac:(lia)). lia. }
  unfold circleStep, errof.
  replace (X * X + y * y - r * r - 2 * X + 2 * y + 2 <=? y) with true by lia.
  rewrite (chk_ok (y + 1)) by (unfold INT_MIN, INT_MAX; lia). cbn [bind].
  rewrite (chk_ok ((y + 1) * 2)) by (unfold INT_MIN, INT_MAX; lia). cbn [bind].
  rewrite (chk_ok ((y + 1) * 2 + 1)) by (unfold INT_MIN, INT_MAX; lia). cbn [bind].
  rewrite chk_ok by (unfold INT_MIN, INT_MAX; lia). cbn [bind].
  rewrite (chk_ok (- - X)) by (unfold INT_MIN, INT_MAX; lia). cbn [bind].
  rewrite Z.opp_involutive.
  destruct (Z.eqb_spec X (y + 1)) as [HXy|HXy].
  - exists (X - 1). split; [|reflexivity].
    destruct (Z.leb_spec (X * X + y * y - r * r - 2 * X + 2 * y + 2) (- X)) as [He|He]; cbn [andb].
    + replace (0 >? - X) with true by lia.
      rewrite (chk_ok (- X + 1)) by (unfold INT_MIN, INT_MAX; lia). cbn [bind].
      rewrite (chk_ok ((- X + 1) * 2)) by (unfold INT_MIN, INT_MAX; lia). cbn [bind].
      rewrite (chk_ok ((- X + 1) * 2 + 1)) by (unfold INT_MIN, INT_MAX; lia). cbn [bind].
      rewrite chk_ok by (unfold INT_MIN, INT_MAX; lia). cbn [bind]. apply (f_equal Ok); apply f_equal2; [apply f_equal2; ring|ring].
    + replace (X * X + y * y - r * r - 2 * X + 2 * y + 2 >? - X) with true by lia.
      rewrite (chk_ok (- X + 1)) by (unfold INT_MIN, INT_MAX; lia). cbn [bind].
      rewrite (chk_ok ((- X + 1) * 2)) by (unfold INT_MIN, INT_MAX; lia). cbn [bind].
      rewrite (chk_ok ((- X + 1) * 2 + 1)) by (unfold INT_MIN, INT_MAX; lia). cbn [bind].
      rewrite chk_ok by (unfold INT_MIN, INT_MAX; lia). cbn [bind]. apply (f_equal Ok); apply f_equal2; [apply f_equal2; ring|ring].
  - cbn [andb]. destruct (Z.gtb_spec (X * X + y * y - r * r - 2 * X + 2 * y + 2) (- X)) as [He|He].
    + exists (X - 1). split.
      * rewrite (chk_ok (- X + 1)) by (unfold INT_MIN, INT_MAX; lia). cbn [bind].
        rewrite (chk_ok ((- X + 1) * 2)) by (unfold INT_MIN, INT_MAX; lia). cbn [bind].
        rewrite (chk_ok ((- X + 1) * 2 + 1)) by (unfold INT_MIN, INT_MAX; lia). cbn [bind].
        rewrite chk_ok by (unfold INT_MIN, INT_MAX; lia). cbn [bind]. apply (f_equal Ok); apply f_equal2; [apply f_equal2; ring|ring].
      * split; [auto|]. destruct (Z.eq_dec (X - 1) (y + 1)) as [E|E].
        -- right. split; [lia|]. unfold diag. split; [lia|]. split; [lia|]. lia.
        -- left. split; [lia|]. unfold oct1, near1. lia.
    + exists X. split.
      * apply (f_equal Ok); apply f_equal2; [apply f_equal2; ring|ring].
      * split; [auto|]. left. split; [lia|]. unfold oct1, near1. lia.
Qed.

Lemma step_diag X y :
  diag X y -> circleStep (- X) y (errof X y) = Ok (- (X - 1), y + 1, errof (X - 1) (y + 1)) /\
              (oct2 (X - 1) (y + 1)).
Proof.
  intros O. pose proof (diag_low X y O) as Hlow. destruct O as [<- [HX [H1 H2]]]. assert (HXr : X < r) by nia. split; [|unfold oct2, near1; lia].
  unfold circleStep, errof.
  replace (X * X + X * X - r * r - 2 * X + 2 * X + 2 <=? X) with true by lia.
  rewrite (chk_ok (X + 1)) by (unfold INT_MIN, INT_MAX; lia). cbn [bind].
  rewrite (chk_ok ((X + 1) * 2)) by (unfold INT_MIN, INT_MAX; lia). cbn [bind].
  rewrite (chk_ok ((X + 1) * 2 + 1)) by (unfold INT_MIN, INT_MAX; lia). cbn [bind].
  rewrite chk_ok by (unfold INT_MIN, INT_MAX; lia). cbn [bind].
  rewrite (chk_ok (- - X)) by (unfold INT_MIN, INT_MAX; lia). cbn [bind].
  rewrite Z.opp_involutive. replace (X =? X + 1) with false by lia. cbn [andb].
  replace (X * X + X * X - r * r - 2 * X + 2 * X + 2 >? - X) with true by lia.
  rewrite (chk_ok (- X + 1)) by (unfold INT_MIN, INT_MAX; lia). cbn [bind].
  rewrite (chk_ok ((- X + 1) * 2)) by (unfold INT_MIN, INT_MAX; lia). cbn [bind].
  rewrite (chk_ok ((- X + 1) * 2 + 1)) by (unfold INT_MIN, INT_MAX; lia). cbn [bind].
  rewrite chk_ok by (unfold INT_MIN, INT_MAX; lia). cbn [bind]. apply (f_equal Ok); apply f_equal2; [apply f_equal2; ring|ring].
Qed.

Lemma step2 X y :
  oct2 X y ->
  exists y', circleStep (- X) y (errof X y) = Ok (- (X - 1), y', errof (X - 1) y') /\
             (1 <= X -> oct2 (X - 1) y').
Proof.
  intros [HXy [H1 H2]]. pose proof (near1_le y X ltac:(lia) ltac:(lia) (conj H1 H2)) as Hy.
  unfold circleStep, errof.
  destruct (Z.leb_spec (X * X + y * y - r * r - 2 * X + 2 * y + 2) y) as [He|He].
  - exists (y + 1). assert (Hyr : y < r) by nia. assert (HX1 : 1 <= X) by (destruct (Z.eq_dec X 0) as [->|]; [nia|lia]).
    pose proof (Hfit (X - 1) y ltac:(lia) ltac:(lia) ltac:(lia)) as Hover. unfold INT_MAX in Hover.
    rewrite (chk_ok (y + 1)) by (unfold INT_MIN, INT_MAX; lia). cbn [bind].
    rewrite (chk_ok ((y + 1) * 2)) by (unfold INT_MIN, INT_MAX; lia). cbn [bind].
    rewrite (chk_ok ((y + 1) * 2 + 1)) by (unfold INT_MIN, INT_MAX; lia). cbn [bind].
    rewrite chk_ok by (unfold INT_MIN, INT_MAX; lia). cbn [bind].
    rewrite (chk_ok (- - X)) by (unfold INT_MIN, INT_MAX; lia). cbn [bind].
    rewrite Z.opp_involutive. replace (X =? y + 1) with false by lia. cbn [andb].
    replace (X * X + y * y - r * r - 2 * X + 2 * y + 2 >? - X) with true by lia.
    rewrite (chk_ok (- X + 1)) by (unfold INT_MIN, INT_MAX; lia). cbn [bind].
    rewrite (chk_ok ((- X + 1) * 2)) by (unfold INT_MIN, INT_MAX; lia). cbn [bind].
    rewrite (chk_ok ((- X + 1) * 2 + 1)) by (unfold INT_MIN, INT_MAX; lia). cbn [bind].
    rewrite chk_ok by (unfold INT_MIN, INT_MAX; lia). cbn [bind].
    split; [apply (f_equal Ok); apply f_equal2; [apply f_equal2; ring|ring]|]. intros HX. unfold oct2, near1. lia.
  - exists y. assert (HX0 : X = 0 -> y = r) by (intros ->; nia). assert (HX1 : X * X + y * y - r * r - 2 * X + 2 * y + 2 + ((- X + 1) * 2 + 1) <= 2147483647).
    { destruct (Z.eq_dec X 0) as [->|HX2]; [rewrite HX0 by reflexivity; lia|].
      pose proof (Hfit X (y - 1) ltac:(lia) ltac:(lia) ltac:(lia)) as Hover. unfold INT_MAX in Hover. lia. } cbn [bind].
    replace (X * X + y * y - r * r - 2 * X + 2 * y + 2 >? - X) with true by lia.
    rewrite (chk_ok (- X + 1)) by (unfold INT_MIN, INT_MAX; lia). cbn [bind].
    rewrite (chk_ok ((- X + 1) * 2)) by (unfold INT_MIN, INT_MAX; lia). cbn [bind].
    rewrite (chk_ok ((- X + 1) * 2 + 1)) by (unfold INT_MIN, INT_MAX; lia). cbn [bind].
    rewrite chk_ok by (unfold INT_MIN, INT_MAX; lia). cbn [bind].
    split; [apply (f_equal Ok); apply f_equal2; [apply f_equal2; ring|ring]|]. intros HX. unfold oct2, near1. lia.
Qed.

(** what one iteration plots, relative to the centre *)
Definition plots (filled : bool) (X y : Z) (q : pt) : Prop :=
  Z.abs (snd q) = y /\ (Z.abs (fst q) = X \/ filled = true /\ Z.abs (fst q) <= X).

Variable center : pt.
Variable filled : bool.
(** the circle does not leave the range of [int]; filled rows step one pixel further *)
Definition roomy : Prop :=
  is_int (fst center - r) /\ fst center + r + (if filled then 1 else 0) <= INT_MAX /\ is_int (snd center - r) /\ is_int (snd center + r).
Hypothesis Hcen : roomy.
Definition rel (q : pt) : pt := (fst q - fst center, snd q - snd center).

Lemma circlePlots_ok X y :
  0 <= X <= r -> 0 <= y <= r ->
  exists l, circlePlots center filled (- X) y = Ok l /\
            forall q, In q l <-> plots filled X y (rel q).
Proof.
  intros HX Hy. pose proof Hcen as Hm. unfold roomy, is_int, INT_MIN, INT_MAX in Hm. clear Hcen. unfold plots, rel. destruct center as [cx cy]. cbn [fst snd] in Hm.
  unfold circlePlots, pt_add. cbn [fst snd].
  rewrite (chk_ok (- - X)) by (unfold INT_MIN, INT_MAX; lia). cbn [bind]. rewrite Z.opp_involutive.
  cbn [fst snd].
  assert (Hm1 : filled = true -> cx + r + 1 <= 2147483647) by (intros E; rewrite E in Hm; lia).
  assert (Hm2 : cx + r <= 2147483647) by (destruct filled; lia). ck. cbn [fst snd]. ck.
  destruct filled; [specialize (Hm1 eq_refl)|].
  - ck. rewrite dhl_ok by (unfold is_int, INT_MIN, INT_MAX; cbn [fst snd]; lia). cbn [bind].
    rewrite dhl_ok by (unfold is_int, INT_MIN, INT_MAX; cbn [fst snd]; lia). cbn [bind].
    eexists. split; [reflexivity|]. intros [a b]. cbn [In]. rewrite in_app_iff, !In_hset. unfold plots, rel. cbn [fst snd].
    split.
    + intros [H|[H|[H|[H|[H|H]]]]]; try (inversion H; subst; split; [lia|left; lia]); (split; [lia|right; split; [reflexivity|lia]]).
    + intros [H1 [H2|[_ H2]]].
      * do 4 right. destruct (Z_le_dec 0 (b - cy)); [left|right]; lia.
      * do 4 right. destruct (Z_le_dec 0 (b - cy)); [left|right]; lia.
  - cbn [bind]. eexists. split; [reflexivity|]. intros [a b]. cbn [In]. unfold plots, rel. cbn [fst snd].
    split.
    + intros [H|[H|[H|[H|[]]]]]; inversion H; subst; (split; [lia|left; lia]).
    + intros [H1 [H2|[H2 _]]]; [|discriminate].
      destruct (Z_le_dec 0 (b - cy)), (Z_le_dec 0 (a - cx)).
      * left. f_equal; lia.
      * right; left. f_equal; lia.
      * right; right; right; left. f_equal; lia.
      * right; right; left. f_equal; lia.
Qed.

Lemma oct2_r X y : oct2 X y -> y <= r.
Proof. intros [H1 H2]. apply (near1_le y X); [lia|lia|exact H2]. Qed.
Lemma oct1_r X y : oct1 X y -> X <= r.
Proof. intros [H1 H2]. apply (near1_le X y); [lia|lia|exact H2]. Qed.

Lemma phase2 n : forall fuel X y,
  X = Z.of_nat n -> oct2 X y -> (n < fuel)%nat ->
  exists l, circleLoop fuel center filled (- X) y (errof X y) = Ok l /\
    forall q, In q l <-> exists X' y', X' <= X /\ oct2 X' y' /\ plots filled X' y' (rel q).
Proof.
  induction n as [|n IH]; intros fuel X y HX H2 Hf; (destruct fuel as [|fuel]; [lia|]); cbn [circleLoop].
  - destruct (circlePlots_ok X y) as [ps [-> Fp]]; [pose proof (proj1 H2); lia|pose proof (oct2_r X y H2); pose proof (proj1 H2); lia|]. cbn [bind].
    destruct (step2 X y H2) as [y1 [-> _]]. cbn [bind]. replace (- (X - 1) <=? 0) with false by lia. cbn [bind].
    eexists. split; [reflexivity|]. intros q. rewrite app_nil_r, Fp. split.
    + intros H. exists X, y. split; [lia|]. auto.
    + intros [X' [y' [A [B C]]]]. assert (X' = X) by (destruct B; lia). subst X'.
      replace y with y'; [exact C|]. apply (near1_unique y' y X); destruct B, H2; auto; lia.
  - destruct (circlePlots_ok X y) as [ps [-> Fp]]; [pose proof (proj1 H2); pose proof (oct2_r X y H2); lia|pose proof (oct2_r X y H2); pose proof (proj1 H2); lia|]. cbn [bind].
    destruct (step2 X y H2) as [y1 [-> Hn]]. cbn [bind]. replace (- (X - 1) <=? 0) with true by lia.
    destruct (IH fuel (X - 1) y1) as [l [-> Fl]]; [lia|apply Hn; lia|lia|]. cbn [bind].
    eexists. split; [reflexivity|]. intros q. rewrite in_app_iff, Fp, Fl. split.
    + intros [H|[X' [y' [A B]]]].
      * exists X, y. split; [lia|]. auto.
      * exists X', y'. split; [lia|exact B].
    + intros [X' [y' [A [B C]]]]. destruct (Z.eq_dec X' X) as [->|Hne].
      * left. replace y with y'; [exact C|]. apply (near1_unique y' y X); destruct B, H2; auto; lia.
      * right. exists X', y'. split; [lia|auto].
Qed.

Lemma oct_after X y X' y' : near1 X y -> X <= y + 1 -> 0 <= y -> 0 <= X -> y < y' < X' -> ~ near1 X' y'.
Proof.
  unfold near1. intros H HX Hy HX0 H' [A B].
  assert (X' * X' - X' >= (y + 2) * (y + 1)) by nia. assert (y' * y' >= (y + 1) * (y + 1)) by nia.
  assert (X * X + X <= (y + 1) * (y + 2)) by nia. lia.
Qed.
Lemma diag_after m X' y' : diag m m -> m <= y' < X' -> ~ near1 X' y'.
Proof.
  unfold near1, diag. intros [_ [Hm H]] H' [A B].
  assert (X' * X' - X' >= (m + 1) * m) by nia. assert (y' * y' >= m * m) by nia. lia.
Qed.
Lemma diag_lt m m' : diag m m -> diag m' m' -> m < m' -> False.
Proof.
  unfold diag. intros [_ [Hm H]] [_ [Hm' H']] Hlt.
  remember (m' - m - 1) as t eqn:Et. assert (m' = m + 1 + t) by lia. subst m'. assert (0 <= m * t) by nia. assert (0 <= t * t) by nia. lia.
Qed.
Lemma diag_unique m m' : diag m m -> diag m' m' -> m = m'.
Proof.
  intros A B. destruct (Z.lt_trichotomy m m') as [H|[H|H]].
  - exfalso. apply (diag_lt m m'); assumption.
  - exact H.
  - exfalso. apply (diag_lt m' m); assumption.
Qed.
Lemma no_diag k m : near1 (k + 1) k -> 0 <= k -> ~ diag m m.
Proof.
  unfold near1, diag. intros [A B] Hk [_ [Hm [C D]]]. destruct (Z_le_dec m k) as [H|H].
  - assert (m * m + m * m + m <= k * k + k * k + k) by nia. lia.
  - remember (m - k - 1) as t eqn:Et. assert (m = k + 1 + t) by lia. subst m. assert (0 <= k * t) by nia. assert (0 <= t * t) by nia. lia.
Qed.

Lemma phase1 n : forall fuel X y,
  X - y = Z.of_nat n -> oct1 X y -> X - y + X + 2 <= Z.of_nat fuel ->
  exists l, circleLoop fuel center filled (- X) y (errof X y) = Ok l /\
    forall q, In q l <-> exists X' y', (oct1 X' y' /\ y <= y' \/ diag X' y' \/ oct2 X' y') /\ plots filled X' y' (rel q).
Proof.
  induction n as [n IH] using lt_wf_ind. intros fuel X y Hn H1 Hf.
  destruct fuel as [|fuel]; [destruct H1; lia|]. cbn [circleLoop].
  pose proof (oct1_r X y H1) as HXr. destruct H1 as [Hy H1].
  destruct (circlePlots_ok X y) as [ps [-> Fp]]; [lia|lia|]. cbn [bind].
  destruct (step1 X y (conj Hy H1)) as [X1 [-> HX1]]. cbn [bind].
  destruct (Z.eqb_spec X (y + 1)) as [HXy|HXy].
  - subst X1. replace (- (X - 1) <=? 0) with true by lia.
    assert (H2 : oct2 (X - 1) (y + 1)).
    { unfold oct2. split; [lia|]. replace (y + 1) with X by lia. replace (X - 1) with y by lia. exact H1. }
    destruct (phase2 (Z.to_nat (X - 1)) fuel (X - 1) (y + 1)) as [l [-> Fl]]; [lia|exact H2|lia|]. cbn [bind].
    eexists. split; [reflexivity|]. intros q. rewrite in_app_iff, Fp, Fl. split.
    + intros [H|[X' [y' [A [B C]]]]].
      * exists X, y. split; [left; split; [split; auto|lia]|exact H].
      * exists X', y'. split; [auto|exact C].
    + intros [X' [y' [[[[A1 A2] A3]|[A|[A1 A2]]] C]]].
      * left. destruct (Z.eq_dec y' y) as [->|Hne].
        -- replace X with X'; [exact C|]. apply (near1_unique X' X y); auto; lia.
        -- exfalso. apply (oct_after X y X' y'); auto; lia.
      * exfalso. pose proof (proj1 A). subst y'. subst X. apply (no_diag y X'); auto; lia.
      * right. exists X', y'. split; [|split; [split; assumption|exact C]].
        destruct (Z_le_dec X' (X - 1)) as [|Hgt]; [assumption|]. exfalso.
        apply (oct_after X y y' X'); auto; lia.
  - destruct HX1 as [HX1 [[Hlt O1]|[Heq D]]].
    + replace (- X1 <=? 0) with true by lia.
      destruct (IH (Z.to_nat (X1 - (y + 1))) ltac:(lia) fuel X1 (y + 1)) as [l [-> Fl]]; [lia|exact O1|lia|]. cbn [bind].
      eexists. split; [reflexivity|]. intros q. rewrite in_app_iff, Fp, Fl. split.
      * intros [H|[X' [y' [A C]]]].
        -- exists X, y. split; [left; split; [split; auto|lia]|exact H].
        -- exists X', y'. split; [|exact C]. destruct A as [[A1 A2]|A]; [left; split; [exact A1|lia]|right; exact A].
      * intros [X' [y' [[[[A1 A2] A3]|A] C]]].
        -- destruct (Z.eq_dec y' y) as [->|Hne].
           ++ left. replace X with X'; [exact C|]. apply (near1_unique X' X y); auto; lia.
           ++ right. exists X', y'. split; [left; split; [split; auto|lia]|exact C].
        -- right. exists X', y'. auto.
    + subst X1. pose proof D as [_ [D1 _]]. replace (- (y + 1) <=? 0) with true by lia.
      destruct fuel as [|fuel]; [lia|]. cbn [circleLoop].
      destruct (circlePlots_ok (y + 1) (y + 1)) as [ps2 [-> Fp2]]; [lia|lia|]. cbn [bind].
      destruct (step_diag (y + 1) (y + 1) D) as [-> O2]. cbn [bind].
      replace (- (y + 1 - 1) <=? 0) with true by lia.
      destruct (phase2 (Z.to_nat (y + 1 - 1)) fuel (y + 1 - 1) (y + 1 + 1)) as [l [-> Fl]]; [lia|exact O2|lia|]. cbn [bind].
      eexists. split; [reflexivity|]. intros q. rewrite !in_app_iff, Fp, Fp2, Fl. split.
      * intros [H|[H|[X' [y' [A [B C]]]]]].
        -- exists X, y. split; [left; split; [split; auto|lia]|exact H].
        -- exists (y + 1), (y + 1). auto.
        -- exists X', y'. auto.
      * intros [X' [y' [[[[A1 A2] A3]|[A|[A1 A2]]] C]]].
        -- left. destruct (Z.eq_dec y' y) as [->|Hne].
           ++ replace X with X'; [exact C|]. apply (near1_unique X' X y); auto; lia.
           ++ exfalso. apply (diag_after (y + 1) X' y'); auto; lia.
        -- right. left. pose proof (proj1 A). subst y'. rewrite (diag_unique X' (y + 1) A D) in C. exact C.
        -- right. right. exists X', y'. split; [|split; [split; assumption|exact C]].
           destruct (Z_le_dec X' (y + 1 - 1)) as [|Hgt]; [assumption|]. exfalso.
           apply (diag_after (y + 1) y' X'); auto; lia.
Qed.

Lemma oct1_start : oct1 r 0.
Proof. unfold oct1, near1. lia. Qed.

Lemma visited_ring a b : visited (Z.abs a) (Z.abs b) <-> ring r (a, b).
Proof.
  unfold visited, oct1, oct2, diag, near1, ring. cbn [fst snd].
  pose proof (Z.abs_nonneg a). pose proof (Z.abs_nonneg b).
  set (x := Z.abs a) in *. set (y := Z.abs b) in *. clearbody x y.
  destruct (Z_lt_dec x y) as [A|A]; [|destruct (Z_lt_dec y x) as [B|B]].
  - rewrite Z.max_r by lia. lia.
  - rewrite Z.max_l by lia. lia.
  - assert (x = y) by lia. subst y. rewrite Z.max_id. split.
    + intros [C|[C|C]]; lia.
    + intros [C D]. right. left. split; [reflexivity|]. assert (x <> 0) by (intros ->; nia). lia.
Qed.

Lemma circleLoop_ok fuel :
  2 * r + 2 <= Z.of_nat fuel ->
  exists l, circleLoop fuel center filled (- r) 0 (2 - 2 * r) = Ok l /\
    forall q, In q l <->
      if filled then exists a', Z.abs (fst (rel q)) <= a' /\ ring r (a', snd (rel q)) else ring r (rel q).
Proof.
  intros Hf. replace (2 - 2 * r) with (errof r 0) by (unfold errof; ring).
  destruct (phase1 (Z.to_nat r) fuel r 0) as [l [E F]]; [lia|exact oct1_start|lia|].
  exists l. split; [exact E|]. intros q. rewrite F. destruct (rel q) as [a b]. unfold plots. cbn [fst snd].
  assert (HV : forall X' y', (oct1 X' y' /\ 0 <= y' \/ diag X' y' \/ oct2 X' y') <-> visited X' y').
  { intros X' y'. unfold visited, oct1. tauto. }
  assert (HP : forall X' y', visited X' y' -> 0 <= X' /\ 0 <= y').
  { intros X' y'. unfold visited, oct1, oct2, diag. lia. }
  destruct filled.
  - split.
    + intros [X' [y' [A [B C]]]]. apply HV in A. pose proof (HP _ _ A). exists X'. split; [destruct C as [C|[_ C]]; lia|].
      apply visited_ring. rewrite Z.abs_eq by lia. rewrite B. exact A.
    + intros [a' [A B]]. apply visited_ring in B. exists (Z.abs a'), (Z.abs b). rewrite HV. split; [exact B|].
      split; [reflexivity|]. right. split; [reflexivity|lia].
  - split.
    + intros [X' [y' [A [B [C|[C _]]]]]]; [|discriminate]. apply HV in A. apply visited_ring. rewrite B, C. exact A.
    + intros A. apply visited_ring in A. exists (Z.abs a), (Z.abs b). rewrite HV. auto.
Qed.
End Circle.

(** ** Closed form of the filled circle *)
Definition disc_closed (r : Z) (q : Z * Z) : Prop :=
  let a := Z.abs (fst q) in let b := Z.abs (snd q) in
  a * a + b * b - r * r < Z.max a b /\
  ~ (a = b /\ a <> 0 /\ a * a + b * b - r * r = Z.max a b - 1).

Lemma least_step (f : Z -> Z) (lo : Z) n : forall a b,
  b = a + Z.of_nat n -> f a < lo -> lo <= f b ->
  exists x, a < x <= b /\ f (x - 1) < lo /\ lo <= f x.
Proof.
  induction n as [|n IH]; intros a b Hb Ha Hfb.
  - replace b with a in Hfb by lia. lia.
  - destruct (Z_lt_dec (f (a + 1)) lo) as [H|H].
    + destruct (IH (a + 1) b ltac:(lia) H Hfb) as [x [Hx Hx2]]. exists x. split; [lia|exact Hx2].
    + exists (a + 1). split; [lia|]. replace (a + 1 - 1) with a by lia. lia.
Qed.

Lemma near1_exists r b : 0 <= b < r -> exists X, 1 <= X /\ near1 r X b.
Proof.
  intros Hb. assert (Hc : 1 <= r * r - b * b) by nia. remember (r * r - b * b) as s eqn:Es.
  destruct (least_step (fun x => x * x + x) s (Z.to_nat s) 0 s) as [x [Hx [H1 H2]]]; [lia|lia|nia|].
  exists x. unfold near1. rewrite <- Es. cbv beta in H1. split; [lia|]. lia.
Qed.

Lemma ring_abs r a b : ring r (a, b) <-> ring r (Z.abs a, Z.abs b).
Proof. unfold ring. cbn [fst snd]. rewrite !Z.abs_involutive. tauto. Qed.

Lemma disc_closed_ok r q : 1 <= r -> (disc r q <-> disc_closed r q).
Proof.
  intros Hr. destruct q as [qa qb]. unfold disc, disc_closed. cbn [fst snd].
  assert (HR : forall a', 0 <= a' -> (ring r (a', qb) <-> ring r (a', Z.abs qb))).
  { intros a' Ha'. rewrite ring_abs, (ring_abs r a' (Z.abs qb)), Z.abs_involutive. tauto. }
  pose proof (Z.abs_nonneg qa) as Ha. pose proof (Z.abs_nonneg qb) as Hb.
  set (a := Z.abs qa) in *. set (b := Z.abs qb) in *. clearbody a b.
  split.
  - intros [a' [H1 H2]]. apply HR in H2; [|lia]. unfold ring in H2. cbn [fst snd] in H2.
    rewrite (Z.abs_eq a'), (Z.abs_eq b) in H2 by lia. destruct H2 as [[H2 H3] H4].
    destruct (Z.eq_dec a a') as [<-|Hne].
    { split; [exact H3|]. intros [E1 [E2 E3]]. apply H4. auto. }
    destruct (Z_le_dec a' b) as [Hab|Hab].
    + rewrite Z.max_r in * by lia. split; [nia|]. intros [E _]. lia.
    + rewrite (Z.max_l a' b) in * by lia. assert (a * a + b * b - r * r < 0) by nia.
      split; [lia|]. intros [E1 [E2 E3]]. lia.
  - intros [H1 H2].
    assert (HR2 : forall a', a <= a' -> - Z.max a' b <= a' * a' + b * b - r * r < Z.max a' b ->
       ~ (a' = b /\ a' * a' + b * b - r * r = Z.max a' b - 1) -> exists a'', a <= a'' /\ ring r (a'', qb)).
    { intros a' Ha' A B. exists a'. split; [exact Ha'|]. apply HR; [lia|]. unfold ring. cbn [fst snd].
      rewrite (Z.abs_eq a'), (Z.abs_eq b) by lia. split; assumption. }
    destruct (Z_lt_dec (b * b + b) (r * r - b * b)) as [Hc|Hc].
    + destruct (near1_exists r b) as [X [HX1 [HX2 HX3]]]; [nia|].
      assert (b < X) by nia. assert (HaX : a <= X). { destruct (Z_le_dec a X) as [|Hn]; [assumption|]. exfalso. rewrite Z.max_l in H1 by lia. nia. }
      apply (HR2 X HaX); rewrite Z.max_l by lia; lia.
    + assert (Hab : a <= b). { destruct (Z_le_dec a b) as [|Hn]; [assumption|]. exfalso. rewrite Z.max_l in H1 by lia. nia. }
      rewrite Z.max_r in H1, H2 by lia.
      destruct (Z_le_dec (- b) (a * a + b * b - r * r)) as [Hd|Hd].
      * apply (HR2 a); [lia| |]; rewrite Z.max_r by lia; [lia|].
        intros [E1 E2]. apply H2. split; [exact E1|]. split; [|exact E2]. intros E3. subst a. subst b. nia.
      * destruct (least_step (fun x => x * x + b * b - r * r) (- b) (Z.to_nat (b - a)) a b) as [x [Hx [Hx1 Hx2]]]; [lia|lia|lia|].
        cbv beta in Hx1. apply (HR2 x); [lia| |]; rewrite Z.max_r by lia; lia.
Qed.

Lemma ring_sym r a b : ring r (a, b) <-> ring r (b, a).
Proof.
  unfold ring. cbn [fst snd]. rewrite (Z.max_comm (Z.abs b)). lia.
Qed.
Lemma ring_sign r a b a' b' : Z.abs a' = Z.abs a -> Z.abs b' = Z.abs b -> (ring r (a, b) <-> ring r (a', b')).
Proof. intros H1 H2. rewrite (ring_abs r a b), (ring_abs r a' b'), H1, H2. tauto. Qed.
Lemma disc_closed_sym r a b : disc_closed r (a, b) <-> disc_closed r (b, a).
Proof. unfold disc_closed. cbn [fst snd]. rewrite (Z.max_comm (Z.abs b)). lia. Qed.
Lemma disc_closed_sign r a b a' b' : Z.abs a' = Z.abs a -> Z.abs b' = Z.abs b -> (disc_closed r (a, b) <-> disc_closed r (a', b')).
Proof. intros H1 H2. unfold disc_closed. cbn [fst snd]. rewrite H1, H2. tauto. Qed.

(** a set with the symmetries of the square does not care about quarter turns *)
Lemma square_sym c (S : pt -> Prop) ctr p :
  (forall a b, S (a, b) -> S (b, a)) -> (forall a b a' b', Z.abs a' = Z.abs a -> Z.abs b' = Z.abs b -> S (a, b) -> S (a', b')) ->
  (S (rel (phys c ctr) (phys c p)) <-> S (fst p - fst ctr, snd p - snd ctr)).
Proof.
  intros H1 H2. unfold rel. rewrite !phys_val. destruct ctr as [x y], p as [u v]. destruct (rot c); cbn [fst snd].
  - tauto.
  - split; intros H; [apply H1 in H|apply H1]; (eapply H2; [| |exact H]); lia.
  - split; intros H; (eapply H2; [| |exact H]); lia.
  - split; intros H; [apply H1 in H|apply H1]; (eapply H2; [| |exact H]); lia.
Qed.

Lemma phys_wide c p : near_canvas c -> near_pt p -> wide (phys c p).
Proof.
  intros Hc Hp. rewrite phys_val. unfold wide, near_canvas, near_pt, near in *. destruct (rot c); cbn [fst snd]; lia.
Qed.

Lemma circleLoop_mono center filled fuel : forall fuel' x y err l,
  circleLoop fuel center filled x y err = Ok l -> (fuel <= fuel')%nat ->
  circleLoop fuel' center filled x y err = Ok l.
Proof.
  induction fuel as [|fuel IH]; intros fuel' x y err l H Hf; [discriminate|].
  destruct fuel' as [|fuel']; [lia|]. cbn [circleLoop] in *.
  destruct (circlePlots center filled x y) as [ps| |]; cbn [bind] in *; try discriminate.
  destruct (circleStep x y err) as [[[x1 y1] err1]| |]; cbn [bind] in *; try discriminate.
  destruct (x1 <=? 0); [|exact H].
  destruct (circleLoop fuel center filled x1 y1 err1) as [l1| |] eqn:E; cbn [bind] in H; try discriminate.
  rewrite (IH fuel' x1 y1 err1 l1 E) by lia. exact H.
Qed.

Lemma drawCircle_unfold fuel c ctr r filled :
  transformPoint c ctr = Ok (phys c ctr) -> -1073741822 <= r <= 1073741823 ->
  drawCircle fuel c ctr r filled = circleLoop fuel (phys c ctr) filled (- r) 0 (2 - 2 * r).
Proof.
  intros Hp Hr. unfold drawCircle. rewrite Hp. cbn [bind].
  rewrite (chk_ok (- r)) by (unfold INT_MIN, INT_MAX; lia). cbn [bind].
  rewrite (chk_ok (2 * r)) by (unfold INT_MIN, INT_MAX; lia). cbn [bind].
  rewrite (chk_ok (2 - 2 * r)) by (unfold INT_MIN, INT_MAX; lia). reflexivity.
Qed.

Lemma drawCircle_room c ctr r (filled : bool) :
  transformPoint c ctr = Ok (phys c ctr) -> 1 <= r -> error_fits r -> roomy r (phys c ctr) filled ->
  exists l, completes (fun fuel => drawCircle fuel c ctr r filled) l /\
    (forall q, In q l <-> (if filled then disc else ring) r (rel (phys c ctr) q)) /\
    forall p, In (phys c p) l <->
      (if filled then disc else ring) r (fst p - fst ctr, snd p - snd ctr).
Proof.
  intros Hp Hr1 Hfit Hm. pose proof (conj Hr1 (error_fits_bound r Hfit)) as Hr.
  destruct (circleLoop_ok r Hr Hfit (phys c ctr) filled Hm (Z.to_nat (2 * r + 2)) ltac:(lia)) as [l [E F]].
  exists l. split; [|split].
  - exists (Z.to_nat (2 * r + 2)). intros fuel Hf. rewrite drawCircle_unfold by (try assumption; lia).
    apply (circleLoop_mono _ _ _ fuel _ _ _ _ E Hf).
  - intros q. rewrite F. destruct filled; reflexivity.
  - intros p. rewrite F. destruct filled.
    + transitivity (disc r (rel (phys c ctr) (phys c p))); [reflexivity|].
      rewrite !disc_closed_ok by lia. apply square_sym; [intros a b; apply disc_closed_sym|].
      intros a b a' b' H1 H2 H. apply (disc_closed_sign r a b a' b' H1 H2). exact H.
    + apply square_sym; [intros a b; apply ring_sym|].
      intros a b a' b' H1 H2 H. apply (ring_sign r a b a' b' H1 H2). exact H.
Qed.
Lemma drawCircle_ok c ctr r (filled : bool) :
  near_canvas c -> near_pt ctr -> 1 <= r <= 268435456 ->
  exists l, completes (fun fuel => drawCircle fuel c ctr r filled) l /\
    forall p, In (phys c p) l <->
      (if filled then disc else ring) r (fst p - fst ctr, snd p - snd ctr).
Proof.
  intros Hc Hp Hr. pose proof (phys_wide c ctr Hc Hp) as Hw.
  destruct (drawCircle_room c ctr r filled (transformPoint_ok c ctr Hc Hp) ltac:(lia) (error_fits_small r ltac:(lia))) as (l & E & _ & F); [|eauto].
  unfold roomy, wide, is_int, INT_MIN, INT_MAX in *. destruct filled; lia.
Qed.

(** radius 0: the centre; negative radius: two points, in the same row of the frame buffer *)
Lemma drawCircle_flat_room c ctr r (filled : bool) :
  transformPoint c ctr = Ok (phys c ctr) -> -536870910 <= r <= 0 ->
  is_int (fst (phys c ctr) + r) -> is_int (fst (phys c ctr) - r) -> is_int (snd (phys c ctr)) ->
  (filled = true -> r = 0 -> fst (phys c ctr) < INT_MAX) ->
  exists l, completes (fun fuel => drawCircle fuel c ctr r filled) l /\
    forall q, In q l <-> snd q = snd (phys c ctr) /\ Z.abs (fst q - fst (phys c ctr)) = - r.
Proof.
  intros Hp Hr Hl Hrt Hy Hf.
  assert (E : forall fuel, exists l, circleLoop (S fuel) (phys c ctr) filled (- r) 0 (2 - 2 * r) = Ok l /\
            forall q, In q l <-> snd q = snd (phys c ctr) /\ Z.abs (fst q - fst (phys c ctr)) = - r).
  { intros fuel. cbn [circleLoop]. destruct (phys c ctr) as [x y]. unfold is_int, INT_MIN, INT_MAX in *. cbn [fst snd] in *.
    unfold circlePlots, pt_add. cbn [fst snd].
    rewrite (chk_ok (- - r)) by (unfold INT_MIN, INT_MAX; lia). cbn [bind]. rewrite Z.opp_involutive.
    cbn [fst snd]. ck. cbn [fst snd]. ck.
    assert (Hrest : forall ps, (do ' (x1, y1, err1) <- circleStep (- r) 0 (2 - 2 * r);
                        do l <- (if x1 <=? 0 then circleLoop fuel (x, y) filled x1 y1 err1 else Ok []); Ok (ps ++ l)) = Ok ps).
    { intros ps. unfold circleStep. replace (2 - 2 * r <=? 0) with false by lia. cbn [bind].
      replace (2 - 2 * r >? - r) with true by lia.
      rewrite (chk_ok (- r + 1)) by (unfold INT_MIN, INT_MAX; lia). cbn [bind].
      rewrite (chk_ok ((- r + 1) * 2)) by (unfold INT_MIN, INT_MAX; lia). cbn [bind].
      rewrite (chk_ok ((- r + 1) * 2 + 1)) by (unfold INT_MIN, INT_MAX; lia). cbn [bind].
      rewrite chk_ok by (unfold INT_MIN, INT_MAX; lia). cbn [bind].
      replace (- r + 1 <=? 0) with false by lia. cbn [bind]. rewrite app_nil_r. reflexivity. }
    destruct filled.
    - ck. rewrite dhl_ok by (unfold is_int, INT_MIN, INT_MAX; cbn [fst snd]; lia). cbn [bind].
      rewrite dhl_ok by (unfold is_int, INT_MIN, INT_MAX; cbn [fst snd]; lia). cbn [bind].
      eexists. split; [apply Hrest|]. intros [a b]. cbn [In]. rewrite in_app_iff, !In_hset. cbn [fst snd].
      split.
      + intros [H|[H|[H|[H|[H|H]]]]]; try (inversion H; subst; lia); lia.
      + intros [H1 H2]. destruct (Z_le_dec 0 (a - x)); [right; left|left]; f_equal; lia.
    - cbn [bind]. eexists. split; [apply Hrest|]. intros [a b]. cbn [In fst snd].
      split.
      + intros [H|[H|[H|[H|[]]]]]; inversion H; subst; lia.
      + intros [H1 H2]. destruct (Z_le_dec 0 (a - x)); [right; left|left]; f_equal; lia. }
  destruct (E O) as [l [El Fl]]. exists l. split; [|exact Fl].
  exists 1%nat. intros fuel Hfu. rewrite drawCircle_unfold by (try assumption; lia).
  apply (circleLoop_mono _ _ _ fuel _ _ _ _ El Hfu).
Qed.
Lemma drawCircle_flat c ctr r filled :
  near_canvas c -> near_pt ctr -> -268435456 <= r <= 0 ->
  exists l, completes (fun fuel => drawCircle fuel c ctr r filled) l /\
    forall q, In q l <-> snd q = snd (phys c ctr) /\ Z.abs (fst q - fst (phys c ctr)) = - r.
Proof.
  intros Hc Hp Hr. pose proof (phys_wide c ctr Hc Hp) as Hw. unfold wide in Hw.
  apply drawCircle_flat_room; unfold is_int, INT_MIN, INT_MAX in *; try lia. apply transformPoint_ok; assumption.
Qed.

(** rows of the filled circle *)
Lemma disc_row r b : 1 <= r -> ((exists a, disc r (a, b)) <-> - r <= b <= r).
Proof.
  intros Hr. split.
  - intros [a H]. apply disc_closed_ok in H; [|lia]. destruct H as [H _]. cbn [fst snd] in H. nia.
  - intros H. exists 0. apply disc_closed_ok; [lia|]. unfold disc_closed. cbn [fst snd]. rewrite Z.abs_0.
    rewrite Z.max_r by lia. split; [nia|]. lia.
Qed.
