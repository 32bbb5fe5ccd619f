(** When the drawing calls are defined: conversely to the lemmas of L_Canvas and L_Circle, a call that
    finishes had room for its coordinates. *)
From Verif Require Import Base S_Graphics M_Geometry M_FrameBuffer M_Canvas S_Paint S_Ranges L_Geometry L_Canvas L_Circle.

Lemma hline_inv n : forall p l, hline n p = Ok l -> (0 < n)%nat -> fst p + Z.of_nat n <= INT_MAX.
Proof.
  induction n as [|n IH]; intros p l H Hn; [lia|]. cbn [hline] in H. apply bind_inv in H. destruct H as (x & C & H).
  apply chk_inv in C. destruct C as [-> C]. apply bind_inv in H. destruct H as (l' & H & _).
  destruct n as [|n]; [unfold INT_MIN, INT_MAX in *; lia|]. apply IH in H; [|lia]. cbn [fst] in H. lia.
Qed.
Lemma vline_inv n : forall p l, vline n p = Ok l -> (0 < n)%nat -> snd p + Z.of_nat n <= INT_MAX.
Proof.
  induction n as [|n IH]; intros p l H Hn; [lia|]. cbn [vline] in H. apply bind_inv in H. destruct H as (x & C & H).
  apply chk_inv in C. destruct C as [-> C]. apply bind_inv in H. destruct H as (l' & H & _).
  destruct n as [|n]; [unfold INT_MIN, INT_MAX in *; lia|]. apply IH in H; [|lia]. cbn [snd] in H. lia.
Qed.

Lemma transformPoint_room c p q : sized c -> is_point p -> transformPoint c p = Ok q -> q = phys c p /\ is_point (phys c p).
Proof.
  intros [Hw Hh] [Hx Hy] H. apply transformPoint_iff in H; try assumption. destruct H as (-> & A & B). split; [reflexivity|]. split; assumption.
Qed.
Lemma transformPoint_point c p : sized c -> is_point p -> is_point (phys c p) -> transformPoint c p = Ok (phys c p).
Proof. intros [Hw Hh] [Hx Hy] [A B]. apply transformPoint_iff; auto. Qed.

Lemma drawLine_inv fuel c a b l : sized c -> is_point a -> is_point b -> drawLine fuel c a b = Ok l ->
  is_point (phys c a) /\ is_point (phys c b) /\ line_room (phys c a) (phys c b).
Proof.
  intros Hc Ha Hb H. unfold drawLine in H.
  apply bind_inv in H. destruct H as (s & Hs & H). apply (transformPoint_room c a s Hc Ha) in Hs. destruct Hs as [-> Ps].
  apply bind_inv in H. destruct H as (e & He & H). apply (transformPoint_room c b e Hc Hb) in He. destruct He as [-> Pe].
  split; [exact Ps|]. split; [exact Pe|].
  set (s := phys c a) in *. set (e := phys c b) in *. clearbody s e. clear Hc Ha Hb a b c.
  destruct s as [xs ys], e as [xe ye]. cbn [fst snd] in *.
  apply bind_inv in H. destruct H as (dx & C & H). apply chk_inv in C. destruct C as [-> _].
  apply bind_inv in H. destruct H as (dx & C & H). apply chk_inv in C. destruct C as [-> CX].
  apply bind_inv in H. destruct H as (dy & C & H). apply chk_inv in C. destruct C as [-> _].
  apply bind_inv in H. destruct H as (dy & C & H). apply chk_inv in C. destruct C as [-> CY].
  unfold line_room. cbv zeta. cbn [fst snd]. split; [apply CX|]. split; [apply CY|].
  destruct (Z.eqb_spec (Z.abs (xe - xs)) 0) as [HX|HX]; [|destruct (Z.eqb_spec (Z.abs (ye - ys)) 0) as [HY|HY]].
  - apply bind_inv in H. destruct H as (n & C & H). apply chk_inv in C. destruct C as [-> C].
    unfold drawVerticalLine in H. apply vline_inv in H; [|lia]. cbn [snd] in H.
    unfold INT_MIN, INT_MAX, is_point, is_int in *. cbn [fst snd] in *. split; [lia|].
    intros s e SE; destruct SE as [SE|SE]; inversion SE; subst; unfold slope_room, flip; cbn [fst snd]; unfold is_int, INT_MIN, INT_MAX; split; intros; split; lia.
  - apply bind_inv in H. destruct H as (n & C & H). apply chk_inv in C. destruct C as [-> C].
    unfold drawHorizontalLine in H. apply hline_inv in H; [|lia]. cbn [fst] in H.
    unfold INT_MIN, INT_MAX, is_point, is_int in *. cbn [fst snd] in *. split; [lia|].
    intros s e SE; destruct SE as [SE|SE]; inversion SE; subst; unfold slope_room, flip; cbn [fst snd]; unfold is_int, INT_MIN, INT_MAX; split; intros; split; lia.
  - split; [lia|]. cbv zeta in H. cbn [fst snd] in H.
    assert (Hmain : forall mv l0 s0 lm sm L S,
      L = lm - l0 -> S = Z.abs (sm - s0) -> 1 <= S <= L ->
      lineLoop fuel mv L S (if s0 <? sm then 1 else -1) lm l0 s0 (Z.quot L 2) = Ok l ->
      lm < INT_MAX /\ (lm - l0 < 2 * Z.abs (sm - s0) -> is_int (sm + Z.sgn (sm - s0)))).
    { clear. intros mv l0 s0 lm sm L S -> -> HS H. rewrite Z.quot_div_nonneg in H by lia.
      pose proof (lineLoop_inv mv (lm - l0) (Z.abs (sm - s0)) (if s0 <? sm then 1 else -1) l0 s0 fuel 0 l) as J.
      rewrite K_0 in J by lia.
      replace (l0 + (lm - l0)) with lm in J by ring. rewrite Z.add_0_r in J.
      replace (s0 + (if s0 <? sm then 1 else -1) * 0) with s0 in J by ring.
      replace ((lm - l0) / 2 - 0 * Z.abs (sm - s0) + 0 * (lm - l0)) with ((lm - l0) / 2) in J by ring.
      destruct (J ltac:(lia) ltac:(lia) ltac:(lia) H) as [J1 J2]. split; [exact J1|]. intros HL. specialize (J2 HL).
      destruct (Z.ltb_spec s0 sm); [rewrite Z.sgn_pos by lia|rewrite Z.sgn_neg by lia]; unfold is_int in *; lia. }
    destruct (Z.gtb_spec (Z.abs (ye - ys)) (Z.abs (xe - xs))) as [Hg|Hg]; cbn [fst snd] in H;
      [destruct (Z.gtb_spec ys ye) as [Ho|Ho]|destruct (Z.gtb_spec xs xe) as [Ho|Ho]]; cbn [fst snd] in H; apply Hmain in H; try lia;
      intros s e SE; (split; [intros D1 D2 D3|intros D1 D3]); try lia; unfold slope_room, flip;
      (destruct SE as [SE|SE]; inversion SE; subst; cbn [fst snd] in *; try lia; exact H).
Qed.

(** ** Circles *)
Lemma circlePlots_inv center filled x y l : circlePlots center filled x y = Ok l ->
  is_int (fst center - x) /\ is_int (fst center + x) /\ is_int (snd center - y) /\ is_int (snd center + y) /\
  (filled = true -> x <= 0 -> fst center - x + 1 <= INT_MAX).
Proof.
  intros H. unfold circlePlots, pt_add in H. destruct center as [cx cy]. cbn [fst snd] in *.
  apply bind_inv in H. destruct H as (nx & C & H). apply chk_inv in C. destruct C as [-> _].
  apply bind_inv in H. destruct H as (a & C1 & H). cbn [fst snd] in C1.
  apply bind_inv in H. destruct H as (b & C2 & H). cbn [fst snd] in C2.
  apply bind_inv in H. destruct H as (ny & C & H). apply chk_inv in C. destruct C as [-> _].
  apply bind_inv in H. destruct H as (d & C3 & H). cbn [fst snd] in C3.
  apply bind_inv in H. destruct H as (e & C4 & H). cbn [fst snd] in C4.
  apply bind_inv in H. destruct H as (rows & C5 & _).
  apply bind_inv in C1. destruct C1 as (u & C1 & C1'). apply chk_inv in C1. destruct C1 as [-> A1].
  apply bind_inv in C2. destruct C2 as (u & C2 & C2'). apply chk_inv in C2. destruct C2 as [-> A2].
  apply bind_inv in C2'. destruct C2' as (u & C2' & C2). apply chk_inv in C2'. destruct C2' as [-> A3]. apply Ok_inj in C2. subst b.
  apply bind_inv in C3. destruct C3 as (u & _ & C3). apply bind_inv in C3. destruct C3 as (u' & C3 & _). apply chk_inv in C3. destruct C3 as [-> A4].
  unfold is_int, INT_MIN, INT_MAX in *. do 4 (split; [lia|]). intros -> Hx.
  apply bind_inv in C5. destruct C5 as (w & C5 & C6). apply chk_inv in C5. destruct C5 as [-> _].
  apply bind_inv in C6. destruct C6 as (w & C6 & C7). apply chk_inv in C6. destruct C6 as [-> _].
  apply bind_inv in C7. destruct C7 as (l1 & C7 & _). unfold drawHorizontalLine in C7. apply hline_inv in C7; [|lia].
  unfold INT_MAX in C7. cbn [fst] in C7. lia.
Qed.

Lemma circleLoop_all center filled : forall fuel x y err l, circleLoop fuel center filled x y err = Ok l -> x <= 0 ->
  forall fuel' l', circleLoop fuel' (0, 0) false x y err = Ok l' -> forall q, In q l' ->
  is_int (fst center - fst q) /\ is_int (fst center + fst q) /\ is_int (snd center - snd q) /\ is_int (snd center + snd q) /\
  (filled = true -> fst center + Z.abs (fst q) + 1 <= INT_MAX).
Proof.
  induction fuel as [|fuel IH]; intros x y err l H Hx fuel' l' H' q Hq; [discriminate|].
  destruct fuel' as [|fuel']; [discriminate|]. cbn [circleLoop] in H, H'.
  apply bind_inv in H. destruct H as (ps & P & H). apply bind_inv in H'. destruct H' as (ps' & P' & H').
  apply bind_inv in H. destruct H as ([[x1 y1] e1] & S & H). apply bind_inv in H'. destruct H' as ([[x2 y2] e2] & S' & H').
  rewrite S in S'. apply Ok_inj in S'. inversion S'. subst x2 y2 e2. clear S'.
  apply bind_inv in H. destruct H as (lr & R & _). apply bind_inv in H'. destruct H' as (lr' & R' & E').
  apply Ok_inj in E'. subst l'. apply in_app_iff in Hq. destruct Hq as [Hq|Hq].
  - apply circlePlots_inv in P. destruct P as (P1 & P2 & P3 & P4 & P5).
    assert (Q : Z.abs (fst q) = - x /\ Z.abs (snd q) = Z.abs y).
    { unfold circlePlots, pt_add in P'. cbn [fst snd] in P'. okinv. cbn [fst snd] in *. okinv. cbn [In] in Hq.
      destruct Hq as [<-|[<-|[<-|[<-|[]]]]]; cbn [fst snd]; lia. }
    destruct Q as [Q1 Q2]. unfold is_int in *. assert (Q3 : filled = true -> fst center - x + 1 <= INT_MAX) by (intros Hf; apply (P5 Hf Hx)). clear P5. repeat split; try lia.
  - destruct (Z.leb_spec x1 0) as [H1|H1]; [|apply Ok_inj in R'; subst lr'; destruct Hq].
    apply (IH _ _ _ _ R H1 _ _ R' q Hq).
Qed.

Lemma drawCircle_inv fuel c ctr r filled l : sized c -> is_point ctr -> is_int r -> drawCircle fuel c ctr r filled = Ok l ->
  is_point (phys c ctr) /\ r <= 1073741823 /\ circleLoop fuel (phys c ctr) filled (- r) 0 (2 - 2 * r) = Ok l.
Proof.
  intros Hc Hp Hr H. unfold drawCircle in H. apply bind_inv in H. destruct H as (q & E & H).
  apply (transformPoint_room c ctr q Hc Hp) in E. destruct E as [-> P]. split; [exact P|].
  apply bind_inv in H. destruct H as (x & C & H). apply chk_inv in C. destruct C as [-> _].
  apply bind_inv in H. destruct H as (x & C & H). apply chk_inv in C. destruct C as [-> C].
  apply bind_inv in H. destruct H as (x & C' & H). apply chk_inv in C'. destruct C' as [-> _].
  split; [unfold INT_MAX in C; lia|exact H].
Qed.

(** ** Large circles *)
Lemma circleStep_inv x y err x1 y1 err1 : circleStep x y err = Ok (x1, y1, err1) ->
  let e2 := if (- x =? y + 1) && (err <=? x) then 0 else err in
  (err <= y -> y1 = y + 1 /\ err + 2 * y + 3 <= INT_MAX /\
     (e2 > x -> x1 = x + 1 /\ err1 = err + 2 * y + 3 + 2 * x + 3) /\ (e2 <= x -> x1 = x /\ err1 = err + 2 * y + 3)) /\
  (y < err -> y1 = y /\ (err > x -> x1 = x + 1 /\ err1 = err + 2 * x + 3) /\ (err <= x -> x1 = x /\ err1 = err)).
Proof.
  unfold circleStep. intros H. cbv zeta. apply bind_inv in H. destruct H as ([[yy ee] e2] & C & H).
  destruct (Z.leb_spec err y) as [L|L].
  - split; [intros _|lia].
    apply bind_inv in C. destruct C as (t & C1 & C). apply chk_inv in C1. destruct C1 as [-> _].
    apply bind_inv in C. destruct C as (t & C1 & C). apply chk_inv in C1. destruct C1 as [-> _].
    apply bind_inv in C. destruct C as (t & C1 & C). apply chk_inv in C1. destruct C1 as [-> _].
    apply bind_inv in C. destruct C as (t & C1 & C). apply chk_inv in C1. destruct C1 as [-> C1].
    apply bind_inv in C. destruct C as (t & C2 & C). apply chk_inv in C2. destruct C2 as [-> _].
    apply Ok_inj in C. inversion C. subst yy ee. set (e := if (- x =? y + 1) && (err <=? x) then 0 else err) in *. clearbody e. subst e2. clear C.
    destruct (Z.gtb_spec e x) as [G|G].
    + apply bind_inv in H. destruct H as (t & C2 & H). apply chk_inv in C2. destruct C2 as [-> _].
      apply bind_inv in H. destruct H as (t & C2 & H). apply chk_inv in C2. destruct C2 as [-> _].
      apply bind_inv in H. destruct H as (t & C2 & H). apply chk_inv in C2. destruct C2 as [-> _].
      apply bind_inv in H. destruct H as (t & C2 & H). apply chk_inv in C2. destruct C2 as [-> _].
      apply Ok_inj in H. inversion H. lia.
    + apply Ok_inj in H. inversion H. lia.
  - split; [lia|intros _]. apply Ok_inj in C. inversion C. subst yy ee e2. clear C.
    destruct (Z.gtb_spec err x) as [G|G].
    + apply bind_inv in H. destruct H as (t & C2 & H). apply chk_inv in C2. destruct C2 as [-> _].
      apply bind_inv in H. destruct H as (t & C2 & H). apply chk_inv in C2. destruct C2 as [-> _].
      apply bind_inv in H. destruct H as (t & C2 & H). apply chk_inv in C2. destruct C2 as [-> _].
      apply bind_inv in H. destruct H as (t & C2 & H). apply chk_inv in C2. destruct C2 as [-> _].
      apply Ok_inj in H. inversion H. lia.
    + apply Ok_inj in H. inversion H. lia.
Qed.

(** the next position, in each part of the way *)
Lemma next1 r X y x1 y1 e1 : oct1 r X y -> circleStep (- X) y (errof r X y) = Ok (x1, y1, e1) ->
  y1 = y + 1 /\ exists X', x1 = - X' /\ e1 = errof r X' (y + 1) /\
    (if X =? y + 1 then X' = X - 1
     else (X' = X \/ X' = X - 1) /\ (y + 1 < X' /\ oct1 r X' (y + 1) \/ y + 1 = X' /\ diag r X' (y + 1))).
Proof.
  intros [Hy [H1 H2]] C. apply circleStep_inv in C. cbv zeta in C. destruct C as [C _]. unfold errof in *.
  destruct (C ltac:(lia)) as (-> & _ & C1 & C2). clear C. split; [reflexivity|]. rewrite Z.opp_involutive in *.
  destruct (Z.eqb_spec X (y + 1)) as [HXy|HXy]; cbn [andb] in *.
  - exists (X - 1). assert (G : (if X * X + y * y - r * r - 2 * X + 2 * y + 2 <=? - X then 0 else X * X + y * y - r * r - 2 * X + 2 * y + 2) > - X) by (destruct (Z.leb_spec (X * X + y * y - r * r - 2 * X + 2 * y + 2) (- X)); lia).
    destruct (C1 G) as [-> ->]. split; [lia|]. split; [ring|reflexivity].
  - destruct (Z_le_dec (X * X + y * y - r * r - 2 * X + 2 * y + 2) (- X)) as [G|G].
    + destruct (C2 G) as [-> ->]. exists X. split; [reflexivity|]. split; [ring|]. split; [auto|]. left. split; [lia|]. unfold oct1, near1. lia.
    + destruct (C1 ltac:(lia)) as [-> ->]. exists (X - 1). split; [lia|]. split; [ring|]. split; [auto|].
      destruct (Z.eq_dec (X - 1) (y + 1)) as [E|E].
      * right. split; [lia|]. unfold diag. split; [lia|]. split; [lia|]. lia.
      * left. split; [lia|]. unfold oct1, near1. lia.
Qed.
Lemma next_diag r X y x1 y1 e1 : diag r X y -> circleStep (- X) y (errof r X y) = Ok (x1, y1, e1) ->
  x1 = - (X - 1) /\ y1 = y + 1 /\ e1 = errof r (X - 1) (y + 1) /\ oct2 r (X - 1) (y + 1).
Proof.
  intros [<- [HX [H1 H2]]] C. apply circleStep_inv in C. cbv zeta in C. destruct C as [C _]. unfold errof in *.
  destruct (C ltac:(lia)) as (-> & _ & C1 & _). clear C. rewrite Z.opp_involutive in C1. replace (X =? X + 1) with false in C1 by lia. cbn [andb] in C1.
  destruct (C1 ltac:(lia)) as [-> ->]. split; [lia|]. split; [reflexivity|]. split; [ring|]. unfold oct2, near1. lia.
Qed.
Lemma next2 r X y x1 y1 e1 : oct2 r X y -> 1 <= X -> circleStep (- X) y (errof r X y) = Ok (x1, y1, e1) ->
  x1 = - (X - 1) /\ e1 = errof r (X - 1) y1 /\ oct2 r (X - 1) y1 /\
  (y1 = y \/ y1 = y + 1 /\ errof r X y + 2 * y + 3 <= INT_MAX).
Proof.
  intros [HXy [H1 H2]] HX C. apply circleStep_inv in C. cbv zeta in C. destruct C as [CA CB]. unfold errof in *. rewrite Z.opp_involutive in CA.
  replace (X =? y + 1) with false in CA by lia. cbn [andb] in CA.
  destruct (Z_le_dec (X * X + y * y - r * r - 2 * X + 2 * y + 2) y) as [L|L].
  - destruct (CA L) as (-> & B & C1 & _). destruct (C1 ltac:(lia)) as [-> ->]. split; [lia|]. split; [ring|]. split; [unfold oct2, near1; lia|]. auto.
  - destruct (CB ltac:(lia)) as (-> & C1 & _). destruct (C1 ltac:(lia)) as [-> ->]. split; [lia|]. split; [ring|]. split; [unfold oct2, near1; lia|]. auto.
Qed.

Lemma way_row center filled r Y : 1 <= r -> 3 * r < 4 * Y -> Y <= r - 1 -> forall fuel X y l,
  visited r X y -> y <= Y -> circleLoop fuel center filled (- X) y (errof r X y) = Ok l ->
  exists X', 1 <= X' /\ oct2 r X' Y /\ errof r X' Y + 2 * Y + 3 <= INT_MAX.
Proof.
  intros Hr HY1 HY2. induction fuel as [|fuel IH]; intros X y l V Hy H; [discriminate|]. cbn [circleLoop] in H.
  apply bind_inv in H. destruct H as (ps & _ & H). apply bind_inv in H. destruct H as ([[x1 y1] e1] & C & H).
  apply bind_inv in H. destruct H as (l' & H & _). destruct V as [V|[V|V]].
  - destruct (next1 r X y x1 y1 e1 V C) as (-> & X' & -> & -> & N). assert (L : 4 * y <= 3 * r) by (clear - V Hr; unfold oct1, near1 in V; nia).
    destruct V as [V1 V2]. unfold near1 in V2.
    destruct (Z.eqb_spec X (y + 1)) as [E|E].
    + subst X'. replace (- (X - 1) <=? 0) with true in H by lia.
      apply IH in H; [exact H| |lia]. right. right. split; [lia|]. unfold near1. rewrite E in V2 |- *. replace (y + 1 - 1) with y by ring. exact V2.
    + destruct N as [N [[N1 N2]|[N1 N2]]].
      * replace (- X' <=? 0) with true in H by lia. apply IH in H; [exact H|left; exact N2|lia].
      * replace (- X' <=? 0) with true in H by lia. apply IH in H; [exact H|right; left; exact N2|lia].
  - destruct (next_diag r X y x1 y1 e1 V C) as (-> & -> & -> & N). assert (L : 4 * y <= 3 * r) by (clear - V Hr; unfold diag in V; nia).
    destruct V as [<- [V1 V2]]. replace (- (X - 1) <=? 0) with true in H by lia.
    apply IH in H; [exact H|right; right; exact N|lia].
  - assert (HX : 1 <= X).
    { destruct V as [V1 V2]. unfold near1 in V2. destruct (Z.eq_dec X 0) as [->|]; [nia|lia]. }
    destruct (next2 r X y x1 y1 e1 V HX C) as (-> & -> & N & Q). replace (- (X - 1) <=? 0) with true in H by lia.
    destruct (Z_le_dec y1 Y) as [L|L]; [apply IH in H; [exact H|right; right; exact N|exact L]|].
    destruct Q as [Q|[Q B]]; [lia|]. assert (y = Y) by lia. subst y. exists X. split; [exact HX|]. split; [exact V|exact B].
Qed.
Lemma start_visited r : 1 <= r -> visited r r 0.
Proof. intros Hr. left. split; [lia|]. unfold near1. lia. Qed.
Lemma way_fits center filled r fuel l : 1 <= r -> circleLoop fuel center filled (- r) 0 (2 - 2 * r) = Ok l -> error_fits r.
Proof.
  intros Hr H. replace (2 - 2 * r) with (errof r r 0) in H by (unfold errof; ring).
  assert (B : r <= 715829427).
  { destruct (Z_le_dec r 715829427) as [L|L]; [exact L|exfalso].
    destruct (way_row center filled r (r - 2) Hr ltac:(lia) ltac:(lia) fuel r 0 l (start_visited r Hr) ltac:(lia) H) as (X & HX & [V1 V2] & E).
    clear H. unfold near1, errof, INT_MAX in *. assert (A1 : (X - 1) * (X - 1) <= 2147483647) by lia. assert (A2 : 3 * r - 2 <= X * X) by lia.
    assert (X - 1 < 46341) by nia. nia. }
  intros v y Hv Hy D. assert (y <= r - 1) by (clear - D Hv Hy Hr; nia). unfold INT_MAX. destruct (Z_le_dec y 715827881) as [L|L]; [lia|].
  destruct (way_row center filled r y Hr ltac:(lia) ltac:(lia) fuel r 0 l (start_visited r Hr) ltac:(lia) H) as (X & HX & [V1 V2] & E).
  clear H. unfold near1, errof, INT_MAX in *. assert (v <= X - 1) by (clear - D V1 V2 Hv HX Hy; nia). assert (v * v <= (X - 1) * (X - 1)) by nia. lia.
Qed.

Lemma circle_inv fuel c ctr r filled l : sized c -> is_point ctr -> is_int r -> drawCircle fuel c ctr r filled = Ok l ->
  is_point (phys c ctr) /\ circle_room (phys c ctr) r filled.
Proof.
  intros Hc Hp Hr H. apply drawCircle_inv in H; try assumption. destruct H as (P & _ & H). split; [exact P|].
  unfold circle_room. destruct (Z.leb_spec r 0) as [R0|R0].
  - destruct fuel as [|fuel]; [discriminate|]. cbn [circleLoop] in H. apply bind_inv in H. destruct H as (ps & C & H).
    apply circlePlots_inv in C. destruct C as (C1 & C2 & C3 & C4 & C5). apply bind_inv in H. destruct H as ([[x1 y1] e1] & S & _).
    unfold circleStep in S. replace (2 - 2 * r <=? 0) with false in S by lia. cbn [bind] in S.
    replace (2 - 2 * r >? - r) with true in S by lia. okinv. unfold is_point, is_int, INT_MIN, INT_MAX in *. split; [lia|]. split; [lia|]. split; [lia|].
    intros Hf Hz. specialize (C5 Hf). lia.
  - assert (R1 : 1 <= r) by lia. pose proof (way_fits _ _ r _ _ R1 H) as Hfit. pose proof (error_fits_bound r Hfit) as Hb.
    assert (Z0 : roomy r (0, 0) false) by (unfold roomy, is_int, INT_MIN, INT_MAX; cbn [fst snd]; lia).
    destruct (circleLoop_ok r ltac:(lia) Hfit (0, 0) false Z0 (Z.to_nat (2 * r + 2)) ltac:(lia)) as [l0 [E0 F0]].
    assert (I1 : In (r, 0) l0). { apply F0. unfold rel, ring. cbn [fst snd]. rewrite !Z.sub_0_r, Z.abs_0, Z.abs_eq, Z.max_l by lia. split; lia. }
    assert (I2 : In (0, r) l0). { apply F0. unfold rel, ring. cbn [fst snd]. rewrite !Z.sub_0_r, Z.abs_0, Z.abs_eq, Z.max_r by lia. split; lia. }
    destruct (circleLoop_all _ _ _ _ _ _ _ H ltac:(lia) _ _ E0 _ I1) as (A1 & A2 & _ & _ & A3).
    destruct (circleLoop_all _ _ _ _ _ _ _ H ltac:(lia) _ _ E0 _ I2) as (_ & _ & A4 & A5 & _). cbn [fst snd] in *.
    split; [exact A1|]. split; [|split; [assumption|split; assumption]]. unfold is_int in *. destruct filled; [specialize (A3 eq_refl)|]; lia.
Qed.

(** the rows in which the error term could leave the range, one by one *)
Fixpoint rows_fit (n : nat) (r y : Z) : bool :=
  match n with
  | O => true
  | S n => let v := Z.sqrt (r * r + y - (y + 1) * (y + 1)) in
           (v * v + (y + 2) * (y + 2) - r * r <=? INT_MAX) && rows_fit n r (y + 1)
  end.
Lemma rows_fit_ok n : forall r y, rows_fit n r y = true -> forall y' v, y <= y' < y + Z.of_nat n -> 0 <= v ->
  v * v + (y' + 1) * (y' + 1) - r * r <= y' -> v * v + (y' + 2) * (y' + 2) - r * r <= INT_MAX.
Proof.
  induction n as [|n IH]; intros r y H y' v Hy' Hv D; [lia|]. cbn [rows_fit] in H. apply andb_true_iff in H. destruct H as [H1 H2].
  destruct (Z.eq_dec y' y) as [->|]; [|apply (IH r (y + 1) H2); lia]. apply Z.leb_le in H1.
  set (N := r * r + y - (y + 1) * (y + 1)) in *. assert (v * v <= N) by (unfold N; lia).
  assert (v <= Z.sqrt N) by (apply Z.sqrt_le_square; [lia|exact Hv|assumption]).
  assert (v * v <= Z.sqrt N * Z.sqrt N) by (apply Z.square_le_mono_nonneg; assumption). lia.
Qed.
Lemma error_fits_check r : (1 <=? r) && rows_fit (Z.to_nat (r - 715827882)) r 715827882 = true -> error_fits r.
Proof.
  intros H. apply andb_true_iff in H. destruct H as [H1 H]. apply Z.leb_le in H1. intros v y Hv Hy D. assert (y <= r - 1) by (clear - D Hv Hy H1; nia).
  destruct (Z_le_dec y 715827881) as [L|L]; [unfold INT_MAX; lia|]. apply (rows_fit_ok _ _ _ H y v); [lia|exact Hv|exact D].
Qed.

Lemma circle_room_int m r filled : 1 <= r -> circle_room m r filled -> is_int r.
Proof.
  intros H R. unfold circle_room in R. replace (r <=? 0) with false in R by lia. destruct R as (_ & _ & _ & _ & F). apply error_fits_bound in F.
  unfold is_int, INT_MIN, INT_MAX. lia.
Qed.

(** ** Shapes on the canvas *)
Lemma on_canvas_point c p : sized c -> in_grid (getSize c) p -> is_point p /\ is_point (phys c p).
Proof.
  intros [Hw Hh] Hp. pose proof (proj2 (phys_grid c p) Hp) as Hq. unfold getSize in Hp.
  unfold in_grid, in_box, is_point, is_int, INT_MIN, INT_MAX in *. destruct (rot c); cbn [fst snd] in *; lia.
Qed.
Lemma on_canvas_line c a b : sized c -> in_grid (getSize c) a -> in_grid (getSize c) b -> line_room (phys c a) (phys c b).
Proof.
  intros [Hw Hh] Ha Hb. apply phys_grid in Ha, Hb. unfold in_grid, in_box in *. cbn [fst snd] in *.
  set (s := phys c a) in *. set (e := phys c b) in *. clearbody s e. destruct s as [xs ys], e as [xe ye]. cbn [fst snd] in *.
  unfold line_room, slope_room, flip, is_int, INT_MIN, INT_MAX in *. cbv zeta. cbn [fst snd]. do 3 (split; [lia|]).
  intros s' e' [E|E]; inversion E; subst; cbn [fst snd]; split; intros; split; lia.
Qed.
Lemma on_canvas_rect c r : sized c -> 0 < fst (sz r) -> 0 < snd (sz r) -> (forall q, in_box (tl r) (sz r) q -> in_grid (getSize c) q) ->
  is_rect r /\ turn_room c r /\ outline_room (turned c r) /\ corner_room (turned c r).
Proof.
  destruct r as [[x y] [w h]]. cbn [tl sz fst snd]. intros [Hw Hh] Sw Sh Hin.
  assert (A : in_grid (getSize c) (x, y)) by (apply Hin; unfold in_box; cbn [fst snd]; lia).
  assert (B : in_grid (getSize c) (x + w - 1, y + h - 1)) by (apply Hin; unfold in_box; cbn [fst snd]; lia). clear Hin.
  unfold getSize, in_grid, in_box in *. unfold is_rect, turn_room, outline_room, turned, edge_room, corner_room, is_point, is_int, INT_MIN, INT_MAX in *.
  cbn [tl sz fst snd] in *. destruct (rot c); cbn [tl sz fst snd] in *; repeat split; lia.
Qed.
