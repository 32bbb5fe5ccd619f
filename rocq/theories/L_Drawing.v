(** Lemmas about sequences of drawing calls. *)
From Verif Require Import Base S_Graphics M_Geometry M_FrameBuffer M_Canvas M_Drawing S_Paint S_Drawing L_Geometry L_FrameBuffer L_Canvas L_Paint.

(** ** Pixels determine the image *)
Lemma bits_of_val a b i n : bits_val a i n = bits_val b i n -> forall k, 0 <= k < Z.of_nat n -> img_bit a (i + k) = img_bit b (i + k).
Proof.
  induction n as [|n IH]; intros H k Hk; [lia|]. cbn [bits_val] in H.
  assert (E : img_bit a (i + Z.of_nat n) = img_bit b (i + Z.of_nat n)).
  { destruct (img_bit a (i + Z.of_nat n)), (img_bit b (i + Z.of_nat n)); try reflexivity; lia. }
  destruct (Z.eq_dec k (Z.of_nat n)) as [->|Hn]; [exact E|]. rewrite E in H. apply IH; lia.
Qed.
Lemma pixels_image f g : fb_wf f -> fb_wf g -> fw g = fw f -> fh g = fh f -> fd g = fd f ->
  (forall q, in_grid (getWidth f, getHeight f) q -> fpixel f q = fpixel g q) -> getImage f = getImage g.
Proof.
  intros Wf Wg E1 E2 E3 H. pose proof (accepted_facts _ _ _ (proj1 Wf)) as [_ [Hh [Hd [_ [_ [HW [H8 _]]]]]]].
  destruct Wf as [_ [Zf Bf]], Wg as [_ [Zg Bg]]. unfold getImage. apply img_ext; [exact Bf|exact Bg|rewrite Zf, Zg, E1, E2, E3; reflexivity|].
  intros i Hi. rewrite Zf in Hi. destruct (bit_cover (effectiveWidth (fw f) (fd f)) (fh f) (fd f) _ i ltac:(lia) H8 Hi HW Hh) as (x & y & k & Hx & Hy & Hk & ->).
  specialize (H (x, y)). unfold fpixel, pixel, getImage in H. cbn [fst snd] in H.
  assert (EW : getWidth g = getWidth f) by (unfold getWidth; rewrite E1, E3; reflexivity). rewrite EW, E3 in H.
  apply (bits_of_val _ _ _ (Z.to_nat (fd f))); [|lia]. unfold getWidth in H. apply H. unfold in_grid, in_box, getHeight. cbn [fst snd]. lia.
Qed.

(** ** One call *)
Definition good (c : canvas) (f : fb) : Prop := fb_wf f /\ fd f <> 2 /\ fd f <> 32 /\ canvas_of c f /\ 0 <= selectedColor f.
Definition kept (f f' : fb) : Prop := fw f' = fw f /\ fh f' = fh f /\ fd f' = fd f.
Lemma kept_trans f g h : kept f g -> kept g h -> kept f h.
Proof. unfold kept. intuition congruence. Qed.
Lemma good_kept c c' f f' : good c f -> kept f f' -> fb_wf f' -> 0 <= selectedColor f' -> cw c' = cw c -> ch c' = ch c -> good c' f'.
Proof.
  unfold good, kept, canvas_of, getWidth, getHeight. intros (A & B & C & [D1 D2] & E) (K1 & K2 & K3) W S E1 E2. rewrite K1, K2, K3, E1, E2. auto 8.
Qed.
Lemma depth_small f : fb_wf f -> fd f <> 32 -> 1 <= fd f < 31.
Proof.
  intros [Ha _] H. unfold accepted, valid_depth in Ha. rewrite !Bool.andb_true_iff in Ha. destruct Ha as [[[[[[[[[[_ _] V] _] _] _] _] _] _] _] _].
  cbn [existsb] in V. lia.
Qed.

Lemma fpixel_buf f f' q : kept f f' -> buf f' = buf f -> fpixel f' q = fpixel f q.
Proof. intros (K1 & K2 & K3) E. unfold fpixel, getImage, getWidth. rewrite E, K1, K3. reflexivity. Qed.

Lemma call_setColor fuel c f col : good c f -> 0 <= col -> exists f', call fuel (SetColor col) c f = Ok (c, f') /\ good c f' /\ kept f f' /\
  selectedColor f' = col mod 2 ^ fd f /\ buf f' = buf f.
Proof.
  intros G Hc. pose proof G as (A & B & C & D & E). pose proof (depth_small f A C) as Hd. cbn [call]. rewrite setColor_ok by lia. cbn [bind].
  eexists. split; [reflexivity|]. assert (K : 0 <= col mod 2 ^ fd f) by (apply Z.mod_pos_bound; apply Z.pow_pos_nonneg; lia).
  split; [|repeat split]. apply (good_kept c c f); try reflexivity; [exact G|repeat split|exact A|exact K].
Qed.
Lemma call_clear fuel c f col : good c f -> 0 <= col -> exists f', call fuel (Clear col) c f = Ok (c, f') /\ good c f' /\ kept f f' /\
  selectedColor f' = selectedColor f /\ forall q, in_grid (cw c, ch c) q -> fpixel f' q = colour (fd f) col.
Proof.
  intros G Hc. pose proof G as (A & B & C & [D1 D2] & E). destruct (clear_ok f col A B) as (m' & H1 & H2 & H3 & H4). cbn [call]. rewrite H1. cbn [bind].
  pose proof (accepted_facts _ _ _ (proj1 A)) as [_ [_ [Hd [_ [_ [HW [H8 _]]]]]]].
  eexists. split; [reflexivity|]. split; [apply (good_kept c c f); try reflexivity; [exact G|repeat split|apply set_buf_wf; auto|exact E]|].
  split; [repeat split|]. split; [reflexivity|]. intros [x y] Hq. unfold in_grid, in_box in Hq. cbn [fst snd] in Hq. rewrite D1, D2 in Hq. unfold getHeight in Hq.
  unfold fpixel, getImage. cbn [fst snd]. change (getWidth (set_buf f m')) with (getWidth f). change (buf (set_buf f m')) with m'. change (fd (set_buf f m')) with (fd f). unfold pixel.
  rewrite (bits_val_testbit _ _ _ (colour (fd f) col)).
  - rewrite Z2Nat.id by lia. apply Z.mod_small. apply colour_range; lia.
  - intros k Hk. rewrite Z2Nat.id in * by lia.
    destruct (bit_pos (fd f) (y * getWidth f + x) k ltac:(lia) ltac:(lia)) as [_ Hm].
    rewrite H4, Hm; [reflexivity|]. destruct A as [_ [Hz _]]. rewrite Hz, H8. unfold getWidth in *.
    set (W := effectiveWidth (fw f) (fd f)) in *. split; [nia|]. assert (y * W + x + 1 <= W * fh f) by nia. nia.
Qed.
Lemma call_draw fuel c f op l : good c f -> op c fuel = Ok l -> exists f', call fuel (Draw op) c f = Ok (c, f') /\ good c f' /\ kept f f' /\
  selectedColor f' = selectedColor f /\ draw c f l = Ok f' /\
  forall q, in_grid (cw c, ch c) q -> (In q l -> fpixel f' q = colour (fd f) (selectedColor f)) /\ (~ In q l -> fpixel f' q = fpixel f q).
Proof.
  intros G Ho. pose proof G as (A & B & C & D & E). destruct (draw_plots c f l A B D E) as (f' & H1 & H2 & H3 & H4 & H5 & H6 & H7).
  cbn [call]. rewrite Ho. cbn [bind]. rewrite H1. cbn [bind]. exists f'. split; [reflexivity|]. split; [apply (good_kept c c f); try reflexivity; [exact G|repeat split; assumption|exact H2|lia]|].
  split; [repeat split; assumption|]. split; [exact H6|]. split; [reflexivity|exact H7].
Qed.
Lemma paints_points c op S : paints c op S -> exists l, completes op l /\
  forall f, fb_wf f -> fd f <> 2 -> canvas_of c f -> 0 <= selectedColor f -> exists f', draw c f l = Ok f' /\
    forall p, in_grid (getSize c) p -> (S p -> fpixel f' (phys c p) = colour (fd f) (selectedColor f)) /\ (~ S p -> fpixel f' (phys c p) = fpixel f (phys c p)).
Proof. intros (l & Hc & H). exists l. split; [exact Hc|]. intros f A B C D. destruct (H f A B C D) as (f' & E1 & _ & _ & _ & _ & _ & _ & E2). eauto. Qed.
