(** C81: sequences of drawing calls obey the painter's rule. *)
From Verif Require Import Base S_Graphics M_Geometry M_FrameBuffer M_Canvas M_Drawing S_Paint S_Drawing L_Geometry L_FrameBuffer L_Canvas L_Paint L_Drawing P_Canvas.

(** whatever is called in whatever order and rotation, every pixel shows what the last call covering it
    gave it *)
Theorem C81_painter : forall ks steps c f, meant c ks steps ->
  fb_wf f -> fd f <> 2 -> fd f <> 32 -> canvas_of c f -> 0 <= selectedColor f ->
  exists c' f', completes (fun fuel => calls fuel ks c f) (c', f') /\ fb_wf f' /\ canvas_of c' f' /\
    fw f' = fw f /\ fh f' = fh f /\ fd f' = fd f /\
    forall q w, in_grid (cw c, ch c) q -> shows (fd f) q c steps (selectedColor f) (fpixel f q) w -> fpixel f' q = w.
Proof.
  intros ks steps c f HM A B C D E. assert (G : good c f) by (unfold good; auto 6). clear A B C D E. revert f G.
  induction HM as [c|c col ks steps Hc HM IH|c col ks steps Hc HM IH|c r ks steps HM IH|c op S ks steps HP HM IH]; intros f G.
  - exists c, f. pose proof G as (A & B & C & D & E). split; [exists O; reflexivity|]. repeat (split; [try assumption; reflexivity|]).
    intros q w Hq HS. inversion HS; subst. reflexivity.
  - destruct (call_setColor 0 c f col G Hc) as (f1 & E1 & G1 & K1 & S1 & B1). destruct (IH f1 G1) as (c' & f' & [n Hn] & W' & C' & K2 & K3 & K4 & P').
    exists c', f'. pose proof K1 as (L1 & L2 & L3). split; [|split; [exact W'|split; [exact C'|split; [congruence|split; [congruence|split; [congruence|]]]]]].
    { exists n. intros fuel Hf. cbn [calls]. change (call fuel (SetColor col) c f) with (call 0 (SetColor col) c f). rewrite E1. cbn [bind]. apply Hn. exact Hf. }
    intros q w Hq HS. inversion HS; subst. apply P'; [exact Hq|]. rewrite L3, S1, (fpixel_buf _ _ _ K1 B1). assumption.
  - destruct (call_clear 0 c f col G Hc) as (f1 & E1 & G1 & K1 & S1 & B1). destruct (IH f1 G1) as (c' & f' & [n Hn] & W' & C' & K2 & K3 & K4 & P').
    exists c', f'. pose proof K1 as (L1 & L2 & L3). split; [|split; [exact W'|split; [exact C'|split; [congruence|split; [congruence|split; [congruence|]]]]]].
    { exists n. intros fuel Hf. cbn [calls]. change (call fuel (Clear col) c f) with (call 0 (Clear col) c f). rewrite E1. cbn [bind]. apply Hn. exact Hf. }
    intros q w Hq HS. inversion HS; subst. apply P'; [exact Hq|]. rewrite L3, S1, (B1 q Hq). assumption.
  - assert (G1 : good (setRotation c r) f) by (destruct G as (A & B & C & D & E); apply (good_kept c (setRotation c r) f f); try reflexivity; [unfold good; auto 6|repeat split|exact A|exact E]).
    destruct (IH f G1) as (c' & f' & [n Hn] & W' & C' & K2 & K3 & K4 & P'). exists c', f'. split; [exists n; intros fuel Hf; cbn [calls call bind]; apply Hn; exact Hf|].
    repeat (split; [assumption|]). intros q w Hq HS. inversion HS; subst. apply P'; assumption.
  - destruct (paints_points _ _ _ HP) as (l & [n1 Hl] & HPP). pose proof G as (A & B & C & D & E). destruct (HPP f A B D E) as (g & Eg & Pg).
    destruct (call_draw n1 c f op l G (Hl n1 (le_n _))) as (f1 & E1 & G1 & K1 & S1 & D1 & _). assert (g = f1) by congruence. subst g.
    destruct (IH f1 G1) as (c' & f' & [n Hn] & W' & C' & K2 & K3 & K4 & P').
    exists c', f'. pose proof K1 as (L1 & L2 & L3). split; [|split; [exact W'|split; [exact C'|split; [congruence|split; [congruence|split; [congruence|]]]]]].
    { exists (Nat.max n n1). intros fuel Hf. cbn [calls call]. rewrite (Hl fuel ltac:(lia)). cbn [bind]. rewrite D1. cbn [bind]. apply Hn. lia. }
    intros q w Hq HS. inversion HS; subst; (apply P'; [assumption|]); rewrite L3, S1.
    + rewrite (proj1 (Pg p ltac:(assumption)) ltac:(assumption)). assumption.
    + rewrite (proj2 (Pg p ltac:(assumption)) ltac:(assumption)). assumption.
Qed.
Print Assumptions C81_painter.

(** drawing the same in another colour replaces it completely *)
Theorem C81_overpaint : forall c f op S a b, paints c (op c) S -> 0 <= a -> 0 <= b ->
  fb_wf f -> fd f <> 2 -> fd f <> 32 -> canvas_of c f -> 0 <= selectedColor f ->
  exists f1 f2, completes (fun fuel => calls fuel [SetColor a; Draw op; SetColor b; Draw op] c f) (c, f1) /\
    completes (fun fuel => calls fuel [SetColor b; Draw op] c f) (c, f2) /\ getImage f1 = getImage f2 /\ selectedColor f1 = selectedColor f2.
Proof.
  intros c f op S a b (l & [n Hl] & _) Ha Hb A B C D E. assert (G : good c f) by (unfold good; auto 6).
  destruct (call_setColor n c f a G Ha) as (f1 & E1 & G1 & K1 & S1 & B1).
  destruct (call_draw n c f1 op l G1 (Hl n (le_n _))) as (f2 & E2 & G2 & K2 & S2 & D2 & P2).
  destruct (call_setColor n c f2 b G2 Hb) as (f3 & E3 & G3 & K3 & S3 & B3).
  destruct (call_draw n c f3 op l G3 (Hl n (le_n _))) as (f4 & E4 & G4 & K4 & S4 & D4 & P4).
  destruct (call_setColor n c f b G Hb) as (g1 & F1 & H1 & J1 & T1 & C1).
  destruct (call_draw n c g1 op l H1 (Hl n (le_n _))) as (g2 & F2 & H2 & J2 & T2 & I2 & Q2).
  exists f4, g2. split; [|split; [|split]].
  - exists n. intros fuel Hf. cbn [calls]. change (call fuel (SetColor a) c f) with (call n (SetColor a) c f). rewrite E1. cbn [bind call]. rewrite (Hl fuel Hf). cbn [bind]. rewrite D2. cbn [bind].
    change (do f' <- setColor f2 b; Ok (c, f')) with (call n (SetColor b) c f2). rewrite E3. cbn [bind]. rewrite (Hl fuel Hf). cbn [bind]. rewrite D4. reflexivity.
  - exists n. intros fuel Hf. cbn [calls]. change (call fuel (SetColor b) c f) with (call n (SetColor b) c f). rewrite F1. cbn [bind call]. rewrite (Hl fuel Hf). cbn [bind]. rewrite I2. reflexivity.
  - pose proof (kept_trans _ _ _ (kept_trans _ _ _ (kept_trans _ _ _ K1 K2) K3) K4) as (X1 & X2 & X3). pose proof (kept_trans _ _ _ J1 J2) as (Y1 & Y2 & Y3).
    apply pixels_image; [apply G4|apply H2|congruence|congruence|congruence|]. destruct G4 as (_ & _ & _ & [V1 V2] & _). rewrite <- V1, <- V2. intros q Hq.
    destruct (P4 q Hq) as [P41 P42], (Q2 q Hq) as [Q21 Q22], (P2 q Hq) as [_ P22]. pose proof K1 as (_ & _ & Z1). pose proof K2 as (_ & _ & Z2). pose proof K3 as (_ & _ & Z3). pose proof J1 as (_ & _ & Z4).
    destruct (in_dec pt_dec q l) as [I|I].
    + rewrite P41, Q21 by exact I. rewrite S3, T1. congruence.
    + rewrite P42, Q22 by exact I. rewrite (fpixel_buf _ _ _ K3 B3), P22 by exact I. rewrite (fpixel_buf _ _ _ K1 B1), (fpixel_buf _ _ _ J1 C1). reflexivity.
  - pose proof K1 as (_ & _ & Z1). pose proof K2 as (_ & _ & Z2). rewrite S4, S3, T2, T1. congruence.
Qed.
Print Assumptions C81_overpaint.
(** two drawings in the same colour can be exchanged; drawing twice is drawing once *)
Theorem C81_order : forall c f op1 op2 S1 S2, paints c (op1 c) S1 -> paints c (op2 c) S2 ->
  fb_wf f -> fd f <> 2 -> fd f <> 32 -> canvas_of c f -> 0 <= selectedColor f ->
  exists g, completes (fun fuel => calls fuel [Draw op1; Draw op2] c f) (c, g) /\ completes (fun fuel => calls fuel [Draw op2; Draw op1] c f) (c, g) /\
    completes (fun fuel => calls fuel [Draw op1; Draw op2; Draw op1] c f) (c, g).
Proof.
  intros c f op1 op2 S1 S2 (l1 & [n1 H1] & _) (l2 & [n2 H2] & _) A B C D E. assert (G : good c f) by (unfold good; auto 6).
  assert (TWO : forall opa opb la lb, opa c (Nat.max n1 n2) = Ok la -> opb c (Nat.max n1 n2) = Ok lb -> exists fa fb, draw c f la = Ok fa /\ draw c fa lb = Ok fb /\ good c fb /\ kept f fb /\ selectedColor fb = selectedColor f /\
    forall q, in_grid (cw c, ch c) q -> fpixel fb q = if in_dec pt_dec q (la ++ lb) then colour (fd f) (selectedColor f) else fpixel f q).
  { intros opa opb la lb Ea Eb. destruct (call_draw _ c f opa la G Ea) as (fa & X1 & X2 & X3 & X4 & X5 & X6). destruct (call_draw _ c fa opb lb X2 Eb) as (fb & Y1 & Y2 & Y3 & Y4 & Y5 & Y6).
    exists fa, fb. split; [exact X5|]. split; [exact Y5|]. split; [exact Y2|]. split; [exact (kept_trans _ _ _ X3 Y3)|]. split; [congruence|]. intros q Hq. destruct (X6 q Hq) as [X7 X8], (Y6 q Hq) as [Y7 Y8].
    pose proof X3 as (_ & _ & X9). destruct (in_dec pt_dec q (la ++ lb)) as [I|I].
    - destruct (in_dec pt_dec q lb) as [J|J]; [rewrite Y7 by exact J; congruence|]. rewrite Y8 by exact J. apply X7. apply in_app_or in I. tauto.
    - rewrite Y8, X8; [reflexivity| |]; intros K; apply I; apply in_or_app; tauto. }
  destruct (TWO op1 op2 l1 l2 (H1 (Nat.max n1 n2) ltac:(lia)) (H2 (Nat.max n1 n2) ltac:(lia))) as (fa & fb & A1 & A2 & A3 & A4 & A5 & A6).
  destruct (TWO op2 op1 l2 l1 (H2 (Nat.max n1 n2) ltac:(lia)) (H1 (Nat.max n1 n2) ltac:(lia))) as (ga & gb & B1 & B2 & B3 & B4 & B5 & B6).
  assert (SAME : forall x y, good c x -> good c y -> kept f x -> kept f y -> selectedColor x = selectedColor y -> (forall q, in_grid (cw c, ch c) q -> fpixel x q = fpixel y q) -> x = y).
  { intros x y Gx Gy (X1 & X2 & X3) (Y1 & Y2 & Y3) Sx P. assert (EI : getImage x = getImage y).
    { apply pixels_image; [apply Gx|apply Gy|congruence|congruence|congruence|]. destruct Gx as (_ & _ & _ & [V1 V2] & _). rewrite <- V1, <- V2. exact P. }
    destruct x as [x1 x2 x3 x4 x5], y as [y1 y2 y3 y4 y5]. unfold getImage in EI. cbn [fw fh fd buf selectedColor] in *. congruence. }
  assert (EQ : fb = gb).
  { apply SAME; try assumption; [congruence|]. intros q Hq. rewrite A6, B6 by exact Hq. destruct (in_dec pt_dec q (l1 ++ l2)) as [I|I], (in_dec pt_dec q (l2 ++ l1)) as [J|J]; try reflexivity;
      exfalso; [apply J|apply I]; apply in_or_app; (apply in_app_or in I || apply in_app_or in J); tauto. }
  subst gb. destruct (call_draw _ c fb op1 l1 A3 (H1 (Nat.max n1 n2) ltac:(lia))) as (h & X1 & X2 & X3 & X4 & X5 & X6).
  assert (EH : h = fb).
  { apply SAME; try assumption; [exact (kept_trans _ _ _ A4 X3)|]. intros q Hq. destruct (X6 q Hq) as [X7 X8]. destruct (in_dec pt_dec q l1) as [I|I]; [|apply X8; exact I].
    rewrite X7 by exact I. rewrite (A6 q Hq). destruct (in_dec pt_dec q (l1 ++ l2)) as [J|J]; [|exfalso; apply J; apply in_or_app; auto]. rewrite A5. pose proof A4 as (_ & _ & A9). rewrite A9. reflexivity. }
  subst h. exists fb. split; [|split]; exists (Nat.max n1 n2); intros fuel Hf; cbn [calls call]; rewrite ?(H1 fuel ltac:(lia)), ?(H2 fuel ltac:(lia)); cbn [bind].
  - rewrite A1. cbn [bind]. rewrite (H2 fuel ltac:(lia)). cbn [bind]. rewrite A2. reflexivity.
  - rewrite B1. cbn [bind]. rewrite (H1 fuel ltac:(lia)). cbn [bind]. rewrite B2. reflexivity.
  - rewrite A1. cbn [bind]. rewrite (H2 fuel ltac:(lia)). cbn [bind]. rewrite A2. cbn [bind]. rewrite (H1 fuel ltac:(lia)). cbn [bind]. rewrite X5. reflexivity.
Qed.
Print Assumptions C81_order.
(** on a cleared image, drawing in the colour of the ground erases what was drawn in any other *)
Theorem C81_erase : forall c f op S a ground, paints c (op c) S -> 0 <= a -> 0 <= ground < 2 ^ fd f ->
  fb_wf f -> fd f <> 2 -> fd f <> 32 -> canvas_of c f -> 0 <= selectedColor f ->
  exists f1 f2, completes (fun fuel => calls fuel [Clear ground; SetColor a; Draw op; SetColor ground; Draw op] c f) (c, f1) /\
    completes (fun fuel => calls fuel [Clear ground] c f) (c, f2) /\ getImage f1 = getImage f2.
Proof.
  intros c f op S a ground (l & [n Hl] & HP) Ha Hg A B C D E. assert (G : good c f) by (unfold good; auto 6).
  destruct (call_clear n c f ground G ltac:(lia)) as (f0 & E0 & G0 & K0 & S0 & P0). pose proof G0 as (A0 & B0 & C0 & D0 & E00).
  destruct (C81_overpaint c f0 op S a ground) as (f1 & f2 & [m1 M1] & [m2 M2] & I & _); try assumption; [exists l; split; [exists n; exact Hl|exact HP]|lia|].
  exists f1, f0. assert (EC : forall fuel, call fuel (Clear ground) c f = Ok (c, f0)) by (intros fuel; exact E0).
  split; [|split].
  - exists m1. intros fuel Hf. cbn [calls]. rewrite EC. cbn [bind]. apply (M1 fuel Hf).
  - exists O. intros fuel _. cbn [calls]. rewrite EC. reflexivity.
  - rewrite I. destruct (call_setColor m2 c f0 ground G0 ltac:(lia)) as (g1 & F1 & H1 & J1 & T1 & C1).
    destruct (call_draw (Nat.max n m2) c g1 op l H1 (Hl (Nat.max n m2) ltac:(lia))) as (g2 & F2 & H2 & J2 & T2 & I2 & Q2).
    assert (E2 : f2 = g2).
    { specialize (M2 (Nat.max n m2) ltac:(lia)). cbn [calls] in M2. change (call (Nat.max n m2) (SetColor ground) c f0) with (call m2 (SetColor ground) c f0) in M2. rewrite F1 in M2. cbn [bind] in M2. rewrite F2 in M2. cbn [bind] in M2. congruence. }
    subst f2. pose proof (kept_trans _ _ _ J1 J2) as (Y1 & Y2 & Y3). apply pixels_image; [apply H2|apply G0|congruence|congruence|congruence|].
    destruct H2 as (_ & _ & _ & [V1 V2] & _). rewrite <- V1, <- V2. intros q Hq. destruct (Q2 q Hq) as [Q21 Q22]. rewrite (P0 q Hq). pose proof J1 as (_ & _ & Z4). pose proof K0 as (_ & _ & Z0).
    destruct (in_dec pt_dec q l) as [J|J]; [rewrite Q21 by exact J|rewrite Q22 by exact J; rewrite (fpixel_buf _ _ _ J1 C1); apply P0; exact Hq].
    rewrite T1, Z4, Z0. unfold colour. rewrite (Z.mod_small ground) by exact Hg. destruct (fd f =? 1); [reflexivity|]. apply Z.mod_small. exact Hg.
Qed.
Print Assumptions C81_erase.
(** what was drawn before a clear leaves no trace *)
Theorem C81_clear : forall ks c f g col fuel, fb_wf f -> fb_wf g -> fd f <> 2 -> fw g = fw f -> fh g = fh f -> fd g = fd f -> selectedColor g = selectedColor f ->
  calls fuel (Clear col :: ks) c f = calls fuel (Clear col :: ks) c g.
Proof.
  intros ks c f g col fuel Wf Wg H2 E1 E2 E3 E4. cbn [calls call].
  destruct (clear_ok f col Wf H2) as (m1 & F1 & L1 & B1 & P1). destruct (clear_ok g col Wg ltac:(lia)) as (m2 & F2 & L2 & B2 & P2). rewrite F1, F2. cbn [bind].
  assert (Hl : zlen (buf f) = zlen (buf g)) by (destruct Wf as [_ [-> _]], Wg as [_ [-> _]]; rewrite E1, E2, E3; reflexivity).
  assert (m1 = m2) by (apply img_ext; [exact B1|exact B2|lia|]; intros i Hi; rewrite P1, P2 by lia; rewrite E3; reflexivity).
  subst m2. unfold set_buf. rewrite E1, E2, E3, E4. reflexivity.
Qed.
Print Assumptions C81_clear.

(** a program with two rotations, two shapes and an erased pixel *)
Definition ring_box : list command :=
  [Clear 0; SetColor 1; Draw (fun c _ => drawRectangle c (mkRect (1, 1) (4, 3))); SetRotation R90;
   Draw (fun c fuel => drawLine fuel c (0, 15) (7, 15)); SetColor 0; Draw (fun c _ => drawPixel c (1, 14))].
Example C81_case : exists steps c' f',
  meant (newCanvas blank) ring_box steps /\ calls 20 ring_box (newCanvas blank) blank = Ok (c', f') /\ rot c' = R90 /\
  getImage f' = [128; 0; 184; 0; 200; 0; 248; 0; 128; 0; 128; 0; 128; 0; 128; 0] /\
  shows 1 (1, 1) (newCanvas blank) steps 1 0 0.
Proof.
  destruct (C27_line (mkCanvas 16 8 R90) (0, 15) (7, 15)) as (l & _ & _ & _ & PL & HL);
    [unfold near_canvas; cbn [cw ch]; lia|unfold near_pt, near; cbn [fst snd]; lia|unfold near_pt, near; cbn [fst snd]; lia|].
  eexists [Ground 0; Colour 1; Shape (frame (1, 1) (4, 3)); Turned R90; Shape (fun p => In p l); Colour 0; Shape (fun p => p = (1, 14))], _, _. split.
  { unfold ring_box. apply m_ground; [lia|]. apply m_colour; [lia|]. apply m_shape.
    - apply (C29_any_size (newCanvas blank) (mkRect (1, 1) (4, 3))); unfold near_canvas, near_pt, near; cbn; lia.
    - apply m_turned. apply m_shape; [exact PL|]. apply m_colour; [lia|]. apply m_shape; [|apply m_nil].
      apply (C26_pixel (mkCanvas 16 8 R90) (1, 14)); unfold near_canvas, near_pt, near; cbn; lia. }
  split; [vm_compute; reflexivity|]. split; [reflexivity|]. split; [reflexivity|].
  apply s_ground, s_colour. apply (s_covered _ _ _ _ (1, 1)); [unfold in_grid, in_box; cbn; lia|reflexivity|unfold frame; cbn [fst snd]; lia|]. apply s_turned.
  apply (s_not_covered _ _ _ _ (1, 14)); [unfold in_grid, in_box; cbn; lia|reflexivity|rewrite HL by (right; reflexivity); cbn [fst snd]; lia|].
  apply s_colour. apply (s_covered _ _ _ _ (1, 14)); [unfold in_grid, in_box; cbn; lia|reflexivity|reflexivity|]. apply s_nil.
Qed.
