(** Lemmas about the shape of circles. *)
From Verif Require Import Base M_Geometry S_Graphics S_Outline L_Circle.

Lemma disc_digital r q : 1 <= r -> (disc r q <-> digital_disc r q).
Proof.
  intros Hr. rewrite (disc_closed_ok r q Hr). unfold disc_closed, digital_disc. destruct q as [a b]. cbn [fst snd].
  split; intros [H1 H2]; (split; [exact H1|]); intros (E & E0 & E1); apply H2; (split; [exact E|split; [exact E0|]]); lia.
Qed.
Lemma digital_sym r a b : digital_disc r (a, b) <-> digital_disc r (b, a).
Proof. unfold digital_disc. cbn [fst snd]. rewrite (Z.max_comm (Z.abs b)). split; intros [H1 H2]; (split; [lia|]); intros (E & E0 & E1); apply H2; lia. Qed.

(** the disc in one quadrant *)
Definition quadrant r a b : Prop := a * a + b * b - r * r < Z.max a b /\ ~ (a = b /\ a <> 0 /\ a * a + b * b - r * r = a - 1).
Lemma digital_quadrant r a b : digital_disc r (a, b) <-> quadrant r (Z.abs a) (Z.abs b).
Proof. reflexivity. Qed.
Lemma quadrant_down r a b : 0 <= a -> 0 <= b -> quadrant r (a + 1) b -> quadrant r a b.
Proof.
  intros Ha Hb [H N]. unfold quadrant. destruct (Z_le_gt_dec (a + 1) b) as [L|L].
  - rewrite Z.max_r in * by lia. split; nia.
  - rewrite Z.max_l in * by lia. split; [nia|]. intros (E & E0 & E1). subst b. nia.
Qed.
Lemma quadrant_left r a b a' : 0 <= a' -> 0 <= b -> a' <= a -> quadrant r a b -> quadrant r a' b.
Proof.
  intros Ha Hb H. remember (Z.to_nat (a - a')) as n eqn:E. revert a H E. induction n as [|n IH]; intros a H E Q.
  - replace a' with a by lia. exact Q.
  - apply (IH (a - 1)); [lia|lia|]. apply quadrant_down; [lia|exact Hb|]. replace (a - 1 + 1) with a by lia. exact Q.
Qed.
Lemma quadrant_sym r a b : quadrant r a b <-> quadrant r b a.
Proof. unfold quadrant. rewrite (Z.max_comm b). split; intros [H1 H2]; (split; [lia|]); intros (E & E0 & E1); apply H2; lia. Qed.
Definition qring r a b : Prop := - Z.max a b <= a * a + b * b - r * r < Z.max a b /\ ~ (a = b /\ a * a + b * b - r * r = Z.max a b - 1).
Lemma ring_quadrant r a b : ring r (a, b) <-> qring r (Z.abs a) (Z.abs b).
Proof. reflexivity. Qed.
Lemma qring_sym r a b : qring r a b <-> qring r b a.
Proof. unfold qring. rewrite (Z.max_comm b). split; intros [H1 H2]; (split; [lia|]); intros (E & E1); apply H2; lia. Qed.
(** one step out of the disc starts in the ring *)
Lemma step_out r a b : 1 <= r -> 0 <= a -> 0 <= b -> quadrant r a b -> ~ quadrant r (a + 1) b -> qring r a b.
Proof.
  intros Hr Ha Hb [H N] O. unfold quadrant in O. unfold qring.
  assert (G : - Z.max a b <= a * a + b * b - r * r).
  { destruct (Z_lt_ge_dec (a * a + b * b - r * r) (- Z.max a b)) as [L|L]; [|lia]. exfalso. apply O. split.
    - destruct (Z_le_gt_dec (a + 1) b); [rewrite Z.max_r in * by lia|rewrite Z.max_l in * by lia]; nia.
    - intros (E & E0 & E1). rewrite Z.max_r in L by lia. nia. }
  split; [lia|]. intros (E & E1). apply N. subst b. rewrite Z.max_id in *. split; [reflexivity|]. split; [|lia]. intros ->. nia.
Qed.
(** the ring is in the disc, and the next pixel outwards is not *)
Lemma ring_out r a b : 1 <= r -> 0 <= a -> 0 <= b -> qring r a b -> quadrant r a b /\ (b <= a -> ~ quadrant r (a + 1) b).
Proof.
  intros Hr Ha Hb [[L H] N]. split.
  - split; [exact H|]. intros (E & E0 & E1). apply N. subst b. rewrite Z.max_id. split; [reflexivity|lia].
  - intros O [Q _]. rewrite Z.max_l in * by lia. nia.
Qed.

Lemma ring_edge r q : 1 <= r -> (ring r q <-> edge (digital_disc r) q).
Proof.
  intros Hr. destruct q as [a b]. rewrite ring_quadrant. split.
  - intros H. pose proof (Z.abs_nonneg a) as Ha. pose proof (Z.abs_nonneg b) as Hb. destruct (Z_le_gt_dec (Z.abs b) (Z.abs a)) as [L|L].
    + destruct (ring_out r _ _ Hr Ha Hb H) as [D O]. split; [exact D|]. exists (if 0 <=? a then a + 1 else a - 1, b).
      split; [unfold beside; cbn [fst snd]; destruct (Z.leb_spec 0 a); lia|]. rewrite digital_quadrant.
      replace (Z.abs (if 0 <=? a then a + 1 else a - 1)) with (Z.abs a + 1) by (destruct (Z.leb_spec 0 a); lia). exact (O L).
    + apply qring_sym in H. destruct (ring_out r _ _ Hr Hb Ha H) as [D O]. split; [apply digital_sym; exact D|].
      exists (a, if 0 <=? b then b + 1 else b - 1).
      split; [unfold beside; cbn [fst snd]; destruct (Z.leb_spec 0 b); lia|]. rewrite digital_sym, digital_quadrant.
      replace (Z.abs (if 0 <=? b then b + 1 else b - 1)) with (Z.abs b + 1) by (destruct (Z.leb_spec 0 b); lia). apply O. lia.
  - intros [D [[x y] [B O]]]. unfold beside in B. cbn [fst snd] in B. rewrite digital_quadrant in *.
    pose proof (Z.abs_nonneg a) as Ha. pose proof (Z.abs_nonneg b) as Hb.
    destruct (Z.eq_dec y b) as [->|Ny].
    + assert (Hx : Z.abs x = Z.abs a + 1 \/ Z.abs x <= Z.abs a) by lia. destruct Hx as [E|L].
      * rewrite E in O. apply step_out; assumption.
      * exfalso. apply O. apply (quadrant_left r (Z.abs a)); [lia|lia|exact L|exact D].
    + assert (x = a) by lia. subst x. apply qring_sym. apply (proj1 (quadrant_sym _ _ _)) in D. rewrite (quadrant_sym r (Z.abs a) (Z.abs y)) in O.
      assert (Hy : Z.abs y = Z.abs b + 1 \/ Z.abs y <= Z.abs b) by lia. destruct Hy as [E|L].
      * rewrite E in O. apply step_out; assumption.
      * exfalso. apply O. apply (quadrant_left r (Z.abs b)); [lia|lia|exact L|exact D].
Qed.

(** *** Walking along the ring *)
Lemma walk_trans S p q z : walk S p q -> walk S q z -> walk S p z.
Proof. intros H K. revert H. induction K as [q Hq|q u v K IH T Hv]; intros H; [exact H|]. eapply walk_step; [apply IH; exact H|exact T|exact Hv]. Qed.
Lemma touching_sym p q : touching p q -> touching q p.
Proof. unfold touching. lia. Qed.
Lemma walk_in S p q : walk S p q -> S p /\ S q.
Proof. intros H. induction H as [p Hp|p q q' H [IH1 IH2] T Hq]; auto. Qed.
Lemma walk_sym S p q : walk S p q -> walk S q p.
Proof.
  intros H. induction H as [p Hp|p q q' H IH T Hq]; [constructor; exact Hp|].
  eapply walk_trans; [|exact IH]. eapply walk_step; [constructor; exact Hq|apply touching_sym; exact T|]. exact (proj2 (walk_in _ _ _ H)).
Qed.
Lemma walk_map (S : Z * Z -> Prop) (f : Z * Z -> Z * Z) p q : (forall u, S u -> S (f u)) -> (forall u v, touching u v -> touching (f u) (f v)) -> walk S p q -> walk S (f p) (f q).
Proof. intros H1 H2 H. induction H as [p Hp|p q q' H IH T Hq]; [constructor; auto|]. eapply walk_step; eauto. Qed.
(** in the octant towards the top *)
Lemma octant_up r : forall n a b, 1 <= r -> n = Z.to_nat a -> 0 <= a <= b -> qring r a b -> walk (ring r) (a, b) (0, r).
Proof.
  induction n as [|n IH]; intros a b Hr En Hab H.
  - assert (a = 0) by lia. subst a. assert (b = r). { destruct H as [[H1 H2] _]. rewrite Z.max_r in * by lia. nia. }
    subst b. constructor. apply ring_quadrant. rewrite Z.abs_0, Z.abs_eq by lia. exact H.
  - assert (R : ring r (a, b)) by (apply ring_quadrant; rewrite !Z.abs_eq by lia; exact H).
    assert (X : exists b', (b' = b \/ b' = b + 1) /\ qring r (a - 1) b').
    { destruct H as [[H1 H2] _]. rewrite Z.max_r in * by lia. destruct (Z_le_gt_dec (- b) (a * a + b * b - r * r - 2 * a + 1)) as [L|L].
      - exists b. split; [left; reflexivity|]. unfold qring. rewrite Z.max_r by lia. split; [nia|]. lia.
      - exists (b + 1). split; [right; reflexivity|]. unfold qring. rewrite Z.max_r by lia. split; [nia|]. lia. }
    destruct X as (b' & Hb' & Q). assert (R' : ring r (a - 1, b')) by (apply ring_quadrant; rewrite !Z.abs_eq by lia; exact Q).
    eapply walk_trans; [|apply (IH (a - 1) b'); [exact Hr|lia|lia|exact Q]].
    eapply walk_step; [constructor; exact R| |exact R']. unfold touching. cbn [fst snd]. lia.
Qed.
(** the two octants of a quadrant meet *)
Lemma diagonal r : 1 <= r -> exists a b, 0 <= a <= b /\ b <= a + 1 /\ qring r a b.
Proof.
  intros Hr. assert (X : exists m, 0 <= m /\ quadrant r m m /\ ~ quadrant r (m + 1) (m + 1)).
  { assert (Q0 : quadrant r 0 0) by (unfold quadrant; change (Z.max 0 0) with 0; split; [nia|tauto]).
    assert (QN : ~ quadrant r (r + 1) (r + 1)) by (unfold quadrant; rewrite Z.max_id; nia).
    assert (D : forall m, quadrant r m m \/ ~ quadrant r m m) by (intros m; unfold quadrant; lia).
    assert (G : forall n : nat, (quadrant r (Z.of_nat n) (Z.of_nat n)) \/ exists m, 0 <= m /\ quadrant r m m /\ ~ quadrant r (m + 1) (m + 1)).
    { induction n as [|n [Q|X]]; [left; exact Q0| |right; exact X]. destruct (D (Z.of_nat n + 1)) as [Y|Y].
      - left. rewrite Nat2Z.inj_succ. unfold Z.succ. exact Y.
      - right. exists (Z.of_nat n). split; [lia|]. split; [exact Q|exact Y]. }
    destruct (G (Z.to_nat (r + 1))) as [Q|X]; [|exact X]. rewrite Z2Nat.id in Q by lia. contradiction. }
  destruct X as (m & Hm & Q & N). assert (D : quadrant r (m + 1) m \/ ~ quadrant r (m + 1) m) by (unfold quadrant; lia). destruct D as [Y|Y].
  - exists m, (m + 1). split; [lia|]. split; [lia|]. apply step_out; [exact Hr|lia|lia|apply quadrant_sym; exact Y|exact N].
  - exists m, m. split; [lia|]. split; [lia|]. apply step_out; assumption.
Qed.
Lemma ring_swap r p : ring r p -> ring r (snd p, fst p).
Proof. destruct p as [a b]. cbn [fst snd]. rewrite !ring_quadrant. apply qring_sym. Qed.
Lemma quarter r a b : 1 <= r -> 0 <= a -> 0 <= b -> qring r a b -> walk (ring r) (a, b) (0, r).
Proof.
  intros Hr Ha Hb H. destruct (Z_le_gt_dec a b) as [L|L]; [apply (octant_up r (Z.to_nat a)); auto|].
  assert (W : walk (ring r) (a, b) (r, 0)).
  { apply qring_sym in H. pose proof (octant_up r (Z.to_nat b) b a Hr eq_refl ltac:(lia) H) as W.
    apply (walk_map _ (fun p => (snd p, fst p))) in W; [exact W|apply ring_swap|]. unfold touching. cbn [fst snd]. tauto. }
  destruct (diagonal r Hr) as (x & y & Hxy & Hy & Q).
  pose proof (octant_up r (Z.to_nat x) x y Hr eq_refl Hxy Q) as W1.
  pose proof (walk_map _ (fun p => (snd p, fst p)) _ _ (ring_swap r) ltac:(unfold touching; cbn [fst snd]; tauto) W1) as W2. cbn [fst snd] in W2.
  eapply walk_trans; [exact W|]. eapply walk_trans; [apply walk_sym; exact W2|]. eapply walk_trans; [|exact W1].
  destruct (walk_in _ _ _ W1) as [R1 _]. destruct (walk_in _ _ _ W2) as [R2 _].
  eapply walk_step; [constructor; exact R2| |exact R1]. unfold touching. cbn [fst snd]. lia.
Qed.
Lemma ring_connected r p q : 1 <= r -> ring r p -> ring r q -> walk (ring r) p q.
Proof.
  intros Hr. assert (T : forall z, ring r z -> walk (ring r) z (0, r)).
  { assert (PX : forall u, ring r u -> ring r (- fst u, snd u)) by (intros [x y] Hu; cbn [fst snd]; apply ring_quadrant; rewrite Z.abs_opp; exact Hu).
    assert (PY : forall u, ring r u -> ring r (fst u, - snd u)) by (intros [x y] Hu; cbn [fst snd]; apply ring_quadrant; rewrite Z.abs_opp; exact Hu).
    assert (TX : forall u v, touching u v -> touching (- fst u, snd u) (- fst v, snd v)) by (unfold touching; cbn [fst snd]; intros; lia).
    assert (TY : forall u v, touching u v -> touching (fst u, - snd u) (fst v, - snd v)) by (unfold touching; cbn [fst snd]; intros; lia).
    assert (U : forall x y, 0 <= y -> ring r (x, y) -> walk (ring r) (x, y) (0, r)).
    { intros x y Hy Hz. rewrite ring_quadrant in Hz. rewrite (Z.abs_eq y Hy) in Hz. pose proof (quarter r (Z.abs x) y Hr (Z.abs_nonneg x) Hy Hz) as W.
      destruct (Z_le_gt_dec 0 x) as [L|L]; [rewrite Z.abs_eq in W by lia; exact W|].
      apply (walk_map _ _ _ _ PX TX) in W. cbn [fst snd] in W. replace (- Z.abs x) with x in W by lia. change (- 0) with 0 in W. exact W. }
    assert (BOT : walk (ring r) (0, - r) (0, r)).
    { assert (R0 : ring r (r, 0)) by (apply ring_quadrant; rewrite Z.abs_0, Z.abs_eq by lia; unfold qring; rewrite Z.max_l by lia; split; [nia|lia]).
      pose proof (U r 0 ltac:(lia) R0) as W. pose proof (walk_map _ _ _ _ PY TY W) as W2. cbn [fst snd] in W2. change (- 0) with 0 in W2.
      eapply walk_trans; [apply walk_sym; exact W2|exact W]. }
    intros [x y] Hz. destruct (Z_le_gt_dec 0 y) as [L|L]; [apply U; assumption|].
    assert (Hm : ring r (x, - y)) by (apply (PY (x, y)); exact Hz). pose proof (U x (- y) ltac:(lia) Hm) as W.
    apply (walk_map _ _ _ _ PY TY) in W. cbn [fst snd] in W. rewrite Z.opp_involutive in W. eapply walk_trans; [exact W|exact BOT]. }
  intros Hp Hq. eapply walk_trans; [apply T; exact Hp|apply walk_sym, T; exact Hq].
Qed.
