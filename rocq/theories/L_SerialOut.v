(** SerialOut: lines. *)
From Coq Require Import Reals Lra.
From Flocq Require Import Core IEEE754.Binary IEEE754.Bits.
From Verif Require Import Base S_BufferedOut M_BufferedOut M_SerialOut L_Decimal L_BufferedOut L_Float L_BufferedOut2 L_BufferedOut3.
Open Scope Z_scope.

(** ** float text *)
Definition fraction (v : binary32) : R := (Rabs (R32 v) - Rabs (IZR (Ztrunc (R32 v))))%R.
Definition dec_value (ds : list Z) : R := (IZR (horner 0 ds) / 10 ^ length ds)%R.

Lemma approx_bounds x ds : approx x ds ->
  (- / 10 ^ length ds - / 16777216 < dec_value ds - x <= / 16777216)%R /\
  ((exists k, x = IZR k * / 1048576)%R -> (0 <= x - dec_value ds < / 10 ^ length ds)%R).
Proof.
  intros (x' & H1 & H2 & H3). unfold dec_value. set (P := (10 ^ length ds)%R) in *. set (D := IZR (horner 0 ds)) in *.
  assert (HP : (1 <= P)%R) by (apply pow_R1_Rle; lra).
  assert (HI : (0 < / P)%R) by (apply Rinv_0_lt_compat; lra).
  assert (PI : (P * / P = 1)%R) by (apply Rinv_r; lra).
  split.
  - apply Rabs_le_inv in H2. set (e := (D + x' - x * P)%R) in *.
    assert (E : (D / P - x = (e - x') * / P)%R).
    { unfold e. replace ((D + x' - x * P - x') * / P)%R with (D * / P - x * (P * / P))%R by ring. rewrite PI. unfold Rdiv. ring. }
    rewrite E.
    assert (B1 : ((P - 1) / 9 * / 2097152 * / P <= / 16777216)%R).
    { replace ((P - 1) / 9 * / 2097152 * / P)%R with ((P * / P - / P) * (/ 9 * / 2097152))%R by (unfold Rdiv; ring). rewrite PI. lra. }
    assert (B2 : (e * / P <= (P - 1) / 9 * / 2097152 * / P)%R) by (apply Rmult_le_compat_r; lra).
    assert (B3 : (- ((P - 1) / 9 * / 2097152) * / P <= e * / P)%R) by (apply Rmult_le_compat_r; lra).
    assert (B4 : (0 <= x' * / P)%R) by (apply Rmult_le_pos; lra).
    assert (B5 : (x' * / P < 1 * / P)%R) by (apply Rmult_lt_compat_r; lra).
    rewrite Ropp_mult_distr_l_reverse in B3. rewrite Rmult_minus_distr_r. lra.
  - intros Hk. specialize (H3 Hk).
    assert (E : (x - D / P = x' * / P)%R).
    { replace (x' * / P)%R with ((D + x') * / P - D / P)%R by (unfold Rdiv; ring). rewrite H3.
      rewrite Rmult_assoc, PI. ring. }
    rewrite E. split; [apply Rmult_le_pos; lra|].
    apply Rlt_le_trans with (1 * / P)%R; [apply Rmult_lt_compat_r; lra|lra].
Qed.

Lemma float_text v junk s t : inside s -> in_int_range v -> dec_text (Ztrunc (R32 v)) t -> zlen t <= room s ->
  exists s' frac, step (OFloat v junk) s = Ok s' /\ same_format s s' /\ capacity s' = capacity s /\ size s' <= capacity s' /\
    asStringView s' = asStringView s ++ t ++ frac /\
    (u32 (prec s) = 0 \/ zlen t = room s -> frac = []) /\
    (0 < u32 (prec s) /\ zlen t < room s -> exists ds, frac = 46 :: ds /\ Forall is_digit ds /\
       zlen ds = Z.min (u32 (prec s)) (room s - zlen t - 1) /\
       (- / 10 ^ length ds - / 16777216 < dec_value ds - fraction v <= / 16777216)%R /\
       ((8 <= Rabs (R32 v))%R -> (0 <= fraction v - dec_value ds < / 10 ^ length ds)%R)).
Proof.
  intros Hs Hv D L. pose proof (dec_text_unique _ _ _ D (decimal_text _)). subst t.
  destruct (insFloat_fits v junk s Hs Hv L) as (s' & ds & E & F & Fd & R). cbv zeta in R.
  set (t := decimal (Ztrunc (R32 v))) in *. cbn [step].
  assert (Hp0 : 0 <= u32 (prec s)) by (unfold u32; apply Z.mod_pos_bound; lia).
  destruct (Z.ltb_spec 0 (u32 (prec s))) as [P|P]; [destruct (Z.ltb_spec 0 (room s - zlen t)) as [Q|Q]|]; cbn [andb] in R.
  - destruct R as ((A1 & A2 & A3 & A4) & Ld & X & K). exists s', (46 :: ds). split; [exact E|]. split; [exact F|].
    split; [exact A3|]. split; [exact A4|]. split; [exact A1|]. split; [lia|]. intros _. exists ds.
    split; [reflexivity|]. split; [exact Fd|]. split; [exact Ld|].
    destruct (approx_bounds _ _ X) as [X1 X2]. split; [exact X1|]. intros H8. exact (X2 (K H8)).
  - destruct R as ((A1 & A2 & A3 & A4) & ->). exists s', []. rewrite app_nil_r. repeat split; try assumption; try apply F; try lia.
  - destruct R as ((A1 & A2 & A3 & A4) & ->). exists s', []. rewrite app_nil_r. repeat split; try assumption; try apply F; try lia.
Qed.

Lemma Ztrunc_small x : (-1 < x < 1)%R -> Ztrunc x = 0.
Proof.
  intros H. destruct (Rle_or_lt 0 x) as [H0|H0].
  - rewrite Ztrunc_floor by exact H0. apply Zfloor_imp. cbn [Z.add]. lra.
  - rewrite Ztrunc_ceil by lra. apply Zceil_imp. cbn [Z.sub Z.opp Z.add Pos.add]. lra.
Qed.

Lemma float_no_sign v junk s : inside s -> fin v = true -> (-1 < R32 v < 0)%R -> 1 <= room s ->
  exists s' t, step (OFloat v junk) s = Ok s' /\ asStringView s' = asStringView s ++ t /\ ~ In 45 t /\ nthZ t 0 = 48.
Proof.
  intros Hs Hf H Hr.
  assert (Hv : in_int_range v) by (split; [exact Hf|lra]).
  assert (D : dec_text (Ztrunc (R32 v)) [48]) by (rewrite Ztrunc_small by lra; exact (decimal_text 0)).
  destruct (float_text v junk s [48] Hs Hv D Hr) as (s' & frac & E & F & _ & _ & A & F0 & F1).
  exists s', ([48] ++ frac). split; [exact E|]. split; [exact A|]. split; [|reflexivity].
  assert (Hp0 : 0 <= u32 (prec s)) by (unfold u32; apply Z.mod_pos_bound; lia). change (zlen [48]) with 1 in *.
  intros [K|K]; [discriminate|]. destruct (Z.eq_dec (u32 (prec s)) 0) as [P|P]; [rewrite F0 in K by auto; exact K|].
  destruct (Z.eq_dec (room s) 1) as [Q|Q]; [rewrite F0 in K by auto; exact K|].
  destruct F1 as (ds & -> & Fd & _); [lia|]. destruct K as [K|K]; [discriminate|].
  rewrite Forall_forall in Fd. apply Fd in K. unfold is_digit in K. lia.
Qed.

(** ** lines *)
Definition clean (b : bo) : Prop := size b = 0 /\ prec b = 0 /\ wid b = 0 /\ fillc b = 32.
Lemma clean_clear b : clean (clear b).
Proof. repeat split. Qed.
Lemma clean_inside b : clean b -> inside b.
Proof. intros (H & _). unfold inside, capacity. rewrite H. pose proof (zlen_nonneg (mem b)). lia. Qed.

(** insertions (not end/endl) and what they forward *)
Inductive forwards : list sop -> list op -> Prop :=
| fw_nil : forwards [] []
| fw_cons o i os is : inner o = Some i -> forwards os is -> forwards (o :: os) (i :: is).

Lemma srun_inner os is : forwards os is -> forall s rest,
  srun (os ++ rest) s = do b <- run is (buf s); srun rest (So b (sent s)).
Proof.
  induction 1 as [|o i os is H _ IH]; intros s rest.
  - destruct s; reflexivity.
  - cbn [app srun run]. unfold sstep. rewrite H. destruct (step i (buf s)) as [b| |]; cbn [bind]; [|reflexivity|reflexivity].
    rewrite IH. reflexivity.
Qed.

Definition line_packets (cap : Z) (text : list Z) : list (list Z) :=
  if zlen text =? cap then [text; [10]] else [text ++ [10]].

Lemma text_len b : inside b -> zlen (asStringView b) = size b.
Proof. intros H. unfold asStringView. unfold inside, capacity in H. apply zlen_slice; lia. Qed.

Lemma endl_step b l : inside b -> 1 <= capacity b <= 65535 ->
  exists b', sstep SEndl (So b l) = Ok (So b' (l ++ line_packets (capacity b) (asStringView b))) /\ clean b' /\ capacity b' = capacity b.
Proof.
  intros Hb Hc. unfold sstep, line_packets. cbn [inner buf]. rewrite text_len by exact Hb.
  destruct (Z.eqb_spec (size b) (capacity b)) as [E|E].
  - cbn [flush buf sent]. destruct (addChar_ok 10 (clear b)) as (b1 & E1 & (A1 & A2 & A3 & A4) & F).
    { apply clean_inside, clean_clear. }
    rewrite E1. cbn [bind flush buf sent]. exists (clear b1). split; [|split; [apply clean_clear|exact A3]].
    unfold flush. cbn [buf sent]. change [asStringView b; [10]] with ([asStringView b] ++ [[10]]). rewrite <- app_assoc. change (room (clear b)) with (capacity b - 0) in A1, A2. replace (1 <=? capacity b - 0) with true in A1, A2 by lia.
    change (size (clear b)) with 0 in A2. change (asStringView (clear b)) with (@nil Z) in A1. cbn [app zlen] in A1. change (zlen [10]) with 1 in A2.
    assert (I : inside b1) by (unfold inside; lia). apply data_iff in Hb as D1. apply data_iff in I as D2.
    replace (data b) with (asStringView b) by (symmetry; apply D1; unfold inside in Hb; lia).
    replace (data b1) with (asStringView b1) by (symmetry; apply D2; lia). rewrite A1. reflexivity.
  - cbn [buf sent]. destruct (addChar_ok 10 b Hb) as (b1 & E1 & (A1 & A2 & A3 & A4) & F). rewrite E1. cbn [bind flush buf sent].
    exists (clear b1). split; [|split; [apply clean_clear|exact A3]]. unfold flush. cbn [buf sent]. do 4 f_equal.
    replace (1 <=? room b) with true in A1, A2 by (unfold room, inside in *; lia). change (zlen [10]) with 1 in A2.
    assert (I : inside b1) by (unfold inside in *; lia). apply data_iff in I as D2.
    replace (data b1) with (asStringView b1) by (symmetry; apply D2; lia). exact A1.
Qed.

(** one line *)
Lemma line_ok os is s : forwards os is -> inside (buf s) -> Forall well_formed is -> 1 <= capacity (buf s) <= 65535 ->
  (run is (buf s) = UB -> srun (os ++ [SEndl]) s = UB) /\
  (forall b, run is (buf s) = Ok b -> exists b', 
     srun (os ++ [SEndl]) s = Ok (So b' (sent s ++ line_packets (capacity (buf s)) (asStringView b))) /\ clean b' /\
     capacity b' = capacity (buf s)).
Proof.
  intros Hf Hb Hw Hc. rewrite (srun_inner _ _ Hf). split.
  - intros ->. reflexivity.
  - intros b E. rewrite E. cbn [bind]. destruct (run_inside _ _ _ Hb Hw E) as [Ib Cb].
    destruct (endl_step b (sent s) Ib ltac:(lia)) as (b' & E' & Cl & Cp). cbn [srun]. rewrite E'. cbn [bind].
    exists b'. rewrite Cb in *. auto.
Qed.

(** many lines of text, numbers and byte spans *)
Inductive sprints : sop -> item -> Prop :=
| sp_cstr str : In 0 str -> sprints (SCStr str) (CText str)
| sp_int n junk : sprints (SInt n junk) (Number n)
| sp_span bs : bytes bs -> sprints (SSpan bs) (HexBytes bs).

Lemma sprints_run os is : Forall2 sprints os is -> exists ios, forwards os (map OI ios) /\ Forall2 prints ios is.
Proof.
  induction 1 as [|o i os is P _ (ios & H1 & H2)].
  - exists []. split; constructor.
  - inversion P; subst.
    + exists (ICStr str :: ios). split; [cbn [map]; apply fw_cons; auto|constructor; [constructor; assumption|assumption]].
    + exists (IInt n junk :: ios). split; [cbn [map]; apply fw_cons; auto|constructor; [constructor; assumption|assumption]].
    + exists (ISpan bs :: ios). split; [cbn [map]; apply fw_cons; auto|constructor; [constructor; assumption|assumption]].
Qed.
Lemma run_irun ios s : run (map OI ios) s = irun ios s.
Proof. revert s. induction ios as [|o ios IH]; intros s; [reflexivity|]. cbn [map run irun step]. destruct (istep o s); cbn [bind]; auto. Qed.
Lemma prints_wf ios is : Forall2 prints ios is -> Forall well_formed (map OI ios).
Proof. induction 1 as [|o i os is P _ IH]; [constructor|]. cbn [map]. constructor; [|exact IH]. destruct P; cbn [well_formed]; auto. Qed.

Lemma srun_app a b s : srun (a ++ b) s = do s' <- srun a s; srun b s'.
Proof. revert s. induction a as [|o a IH]; intros s; [reflexivity|]. cbn [app srun]. destruct (sstep o s); cbn [bind]; auto. Qed.
Lemma concat_line cap t : concat (line_packets cap t) = t ++ [10].
Proof. unfold line_packets. destruct (zlen t =? cap); cbn [concat]; rewrite ?app_nil_r; reflexivity. Qed.

Lemma lines_ok lines items : Forall2 (Forall2 sprints) lines items -> forall s, clean (buf s) ->
  1 <= capacity (buf s) <= 65535 ->
  exists s' texts, srun (concat (map (fun l => l ++ [SEndl]) lines)) s = Ok s' /\
    Forall2 (clipped_all (capacity (buf s))) items texts /\
    sent s' = sent s ++ flat_map (line_packets (capacity (buf s))) texts /\
    Forall (fun t => zlen t <= capacity (buf s)) texts /\
    clean (buf s') /\ capacity (buf s') = capacity (buf s).
Proof.
  induction 1 as [|l it lines items P _ IH]; intros s Hc Hcap.
  - exists s, []. cbn [map concat srun flat_map]. rewrite app_nil_r. repeat split; auto; apply Hc.
  - cbn [map concat]. destruct (sprints_run _ _ P) as (ios & F & Q).
    pose proof (clean_inside _ Hc) as Hi.
    destruct (prints_run _ _ Q (buf s) Hi) as (b & t & E & C & A & Fm). { destruct Hc as (_ & _ & -> & _). lia. }
    destruct (line_ok l (map OI ios) s F Hi (prints_wf _ _ Q) Hcap) as [_ Hl].
    destruct (Hl b) as (b' & E' & Cl & Cp). { rewrite run_irun. exact E. }
    rewrite srun_app, E'. cbn [bind].
    destruct (IH (So b' (sent s ++ line_packets (capacity (buf s)) (asStringView b)))) as (s' & texts & E2 & F2 & S2 & L2 & C2 & K2).
    { exact Cl. } { cbn [buf]. lia. }
    exists s', (t :: texts). split; [exact E2|]. cbn [buf] in F2, K2. rewrite Cp in F2, K2.
    split; [constructor; [|exact F2]|].
    { replace (capacity (buf s)) with (room (buf s)) by (unfold room; destruct Hc as (-> & _); lia). exact C. }
    destruct A as (A1 & A2 & A3 & A4). assert (E0 : asStringView (buf s) = []) by (unfold asStringView; destruct Hc as (-> & _); reflexivity).
    rewrite E0 in A1. cbn [app] in A1. cbn [buf sent] in *. rewrite Cp in *. split; [|split; [constructor; [|exact L2]|auto]].
    + rewrite S2, A1. cbn [flat_map]. rewrite <- app_assoc. reflexivity.
    + destruct Hc as (H0 & _). rewrite H0 in *. lia.
Qed.
Lemma concat_packets cap texts : concat (flat_map (line_packets cap) texts) = concat (map (fun t => t ++ [10]) texts).
Proof. induction texts as [|t texts IH]; [reflexivity|]. cbn [flat_map map concat]. rewrite concat_app, concat_line, IH. reflexivity. Qed.
Lemma end_step b l : inside b -> capacity b <= 65535 -> exists b', sstep SEnd (So b l) = Ok (So b' (l ++ [asStringView b])) /\ clean b' /\ capacity b' = capacity b.
Proof.
  intros Hb Hc. exists (clear b). unfold sstep, flush. cbn [inner buf sent]. split; [|split; [apply clean_clear|reflexivity]].
  do 3 f_equal. f_equal. apply data_iff; [exact Hb|]. unfold inside in Hb. lia.
Qed.
