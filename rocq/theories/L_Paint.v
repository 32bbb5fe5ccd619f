(** From the list of plotted points to the painted set of pixels. *)
From Verif Require Import Base S_Graphics M_Geometry M_FrameBuffer M_Canvas S_Paint L_Geometry L_FrameBuffer L_Canvas L_Circle.

Lemma paints_of c op l (S : pt -> Prop) :
  completes op l -> (forall p, in_grid (getSize c) p -> (In (phys c p) l <-> S p)) -> paints c op S.
Proof.
  intros Hc HS. exists l. split; [exact Hc|]. intros f Hwf H2 Hcf Hsel.
  destruct (draw_plots c f l Hwf H2 Hcf Hsel) as [f' [E [Hwf' [Hw [Hh [Hd [Hs Hp]]]]]]].
  exists f'. split; [exact E|]. split; [exact Hwf'|].
  assert (Hg : getWidth f' = getWidth f /\ getHeight f' = getHeight f).
  { unfold getWidth, getHeight. rewrite Hw, Hh, Hd. auto. }
  split. { unfold getImage. destruct Hwf as [_ [-> _]], Hwf' as [_ [-> _]]. rewrite Hw, Hh, Hd. reflexivity. }
  split; [apply Hg|]. split; [apply Hg|]. split; [exact Hd|]. split; [exact Hs|].
  intros p Hp'. rewrite <- HS by exact Hp'. apply Hp. apply phys_grid. exact Hp'.
Qed.

Lemma completes_const {A} (a : A) x : x = Ok a -> completes (fun _ => x) a.
Proof. intros ->. exists O. reflexivity. Qed.
Lemma completes_unique {A} op (a b : A) : completes op a -> completes op b -> a = b.
Proof.
  intros [n Hn] [m Hm]. specialize (Hn (max n m) ltac:(lia)). specialize (Hm (max n m) ltac:(lia)). congruence.
Qed.
Lemma paints_ext c op (S S' : pt -> Prop) : (forall p, S p <-> S' p) -> paints c op S -> paints c op S'.
Proof.
  intros HS [l [Hl H]]. exists l. split; [exact Hl|]. intros f A B C D.
  destruct (H f A B C D) as [f' [H1 [H2 [H3 [H4 [H5 [H6 [H7 H8]]]]]]]].
  exists f'. repeat (split; [assumption|]). intros p Hp. rewrite <- HS. apply H8. exact Hp.
Qed.

(** axis-parallel digital lines are exact segments *)
Lemma digital_line_straight a b l :
  digital_line a b l -> fst a = fst b \/ snd a = snd b ->
  forall p, In p l <->
    Z.min (fst a) (fst b) <= fst p <= Z.max (fst a) (fst b) /\
    Z.min (snd a) (snd b) <= snd p <= Z.max (snd a) (snd b).
Proof.
  intros [s [e [Hse [Hl [H0 [HL [Hi _]]]]]]] Hst p.
  remember (Z.max (Z.abs (fst b - fst a)) (Z.abs (snd b - snd a))) as L eqn:EL.
  assert (HL0 : 0 <= L) by lia.
  assert (Hq : forall i q, 0 <= i <= L -> nth_error l (Z.to_nat i) = Some q ->
     fst q = (if fst e <? fst s then fst s - i else if fst s <? fst e then fst s + i else fst s) /\
     snd q = (if snd e <? snd s then snd s - i else if snd s <? snd e then snd s + i else snd s)).
  { intros i q Hi' Eq. destruct (Z.eq_dec L 0) as [HL00|HLp].
    - assert (i = 0) by lia. subst i. change (Z.to_nat 0) with O in Eq. rewrite H0 in Eq. injection Eq as <-.
      assert (fst s = fst e /\ snd s = snd e) as [-> ->] by (destruct Hse as [Hse|Hse]; inversion Hse; subst; lia).
      rewrite !Z.ltb_irrefl. auto.
    - destruct (Hi i Hi') as [q' [Eq' [A B]]]. rewrite Eq in Eq'. injection Eq' as <-.
      assert (HE : (fst s = fst e /\ Z.abs (snd e - snd s) = L) \/ (snd s = snd e /\ Z.abs (fst e - fst s) = L))
        by (destruct Hse as [Hse|Hse]; inversion Hse; subst; lia).
      assert (Hz : forall u, 2 * Z.abs (L * u) <= L -> u = 0) by (clear - HL0 HLp; intros u Hu; rewrite Z.abs_mul in Hu; nia).
      destruct HE as [[E1 E2]|[E1 E2]].
      + assert (fst q - fst s = 0) by (apply Hz; replace (i * (fst e - fst s)) with 0 in A by (rewrite E1; ring); rewrite Z.sub_0_r in A; exact A).
        split; [rewrite E1, Z.ltb_irrefl; lia|].
        destruct (Z.ltb_spec (snd e) (snd s)).
        * assert (snd q - snd s + i = 0); [|lia]. apply Hz. replace (L * (snd q - snd s + i)) with (L * (snd q - snd s) - i * (snd e - snd s)) by nia. exact B.
        * replace (snd s <? snd e) with true by lia. assert (snd q - snd s - i = 0); [|lia]. apply Hz.
          replace (L * (snd q - snd s - i)) with (L * (snd q - snd s) - i * (snd e - snd s)) by nia. exact B.
      + assert (snd q - snd s = 0) by (apply Hz; replace (i * (snd e - snd s)) with 0 in B by (rewrite E1; ring); rewrite Z.sub_0_r in B; exact B).
        split; [|rewrite E1, Z.ltb_irrefl; lia].
        destruct (Z.ltb_spec (fst e) (fst s)).
        * assert (fst q - fst s + i = 0); [|lia]. apply Hz. replace (L * (fst q - fst s + i)) with (L * (fst q - fst s) - i * (fst e - fst s)) by nia. exact A.
        * replace (fst s <? fst e) with true by lia. assert (fst q - fst s - i = 0); [|lia]. apply Hz.
          replace (L * (fst q - fst s - i)) with (L * (fst q - fst s) - i * (fst e - fst s)) by nia. exact A. }
  assert (HSE : Z.min (fst a) (fst b) = Z.min (fst s) (fst e) /\ Z.max (fst a) (fst b) = Z.max (fst s) (fst e) /\
                Z.min (snd a) (snd b) = Z.min (snd s) (snd e) /\ Z.max (snd a) (snd b) = Z.max (snd s) (snd e) /\
                L = Z.max (Z.abs (fst e - fst s)) (Z.abs (snd e - snd s)) /\ (fst s = fst e \/ snd s = snd e)).
  { destruct Hse as [Hse|Hse]; inversion Hse; subst; lia. }
  destruct HSE as [-> [-> [-> [-> [EL2 Hst2]]]]]. split.
  - intros H. apply In_nth_error in H. destruct H as [n Hn].
    assert (Hn2 : Z.of_nat n <= L). { assert (n < length l)%nat by (apply nth_error_Some; congruence). unfold zlen in Hl. lia. }
    specialize (Hq (Z.of_nat n) p ltac:(lia)). rewrite Nat2Z.id in Hq. specialize (Hq Hn).
    destruct (Z.ltb_spec (fst e) (fst s)), (Z.ltb_spec (snd e) (snd s)), (Z.ltb_spec (fst s) (fst e)), (Z.ltb_spec (snd s) (snd e)); lia.
  - intros H. pose (i := Z.max (Z.abs (fst p - fst s)) (Z.abs (snd p - snd s))).
    assert (Hir : 0 <= i <= L) by (unfold i; clear - H EL2 Hst2; lia).
    destruct (Hi i Hir) as [q [Eq _]]. pose proof (Hq i q Hir Eq) as Hqq.
    assert (p = q).
    { clear - H EL2 Hst2 Hqq. subst i. destruct p as [px py], q as [qx qy]. cbn [fst snd] in *. apply f_equal2;
      destruct (Z.ltb_spec (fst e) (fst s)), (Z.ltb_spec (snd e) (snd s)), (Z.ltb_spec (fst s) (fst e)), (Z.ltb_spec (snd s) (snd e)); lia. }
    subst q. apply nth_error_In in Eq. exact Eq.
Qed.

Lemma frame_border p s q : 0 < fst s -> 0 < snd s -> (frame p s q <-> border p s q).
Proof. intros Hw Hh. unfold frame, border, in_box. cbn [fst snd]. lia. Qed.
