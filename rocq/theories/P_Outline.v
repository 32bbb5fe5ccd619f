(** C76: the shape of circles. *)
From Verif Require Import Base M_Geometry M_FrameBuffer M_Canvas S_Graphics S_Paint S_Ranges S_Outline L_Paint L_Circle L_Ranges L_Outline P_Canvas P_Ranges.

(** Wherever it has room (C83), a filled circle paints the digital disc around its centre: *)
Theorem C76_filled : forall c ctr r, sized c -> is_point ctr -> 1 <= r ->
  is_point (phys c ctr) -> circle_room (phys c ctr) r true ->
  paints c (fun fuel => drawCircle fuel c ctr r true) (fun p => digital_disc r (around ctr p)).
Proof.
  intros c ctr r Hc Hp Hr P R. destruct (C83_circle c ctr r true Hc Hp (circle_room_int _ _ _ Hr R)) as (_ & X & _).
  eapply paints_ext; [|apply X; [split; assumption|lia]]. intros p. apply disc_digital. lia.
Qed.
Print Assumptions C76_filled.
(** every pixel of the ideal disc and no pixel half a pixel or more outside it *)
Theorem C76_distance : forall r a b, 1 <= r ->
  (a ^ 2 + b ^ 2 <= r ^ 2 -> digital_disc r (a, b)) /\
  (digital_disc r (a, b) -> 4 * (a ^ 2 + b ^ 2) < (2 * r + 1) ^ 2).
Proof.
  intros r a b Hr. unfold digital_disc. cbn [fst snd].
  replace (a ^ 2) with (Z.abs a * Z.abs a) by (rewrite Z.abs_square; ring). replace (b ^ 2) with (Z.abs b * Z.abs b) by (rewrite Z.abs_square; ring).
  pose proof (Z.abs_nonneg a). pose proof (Z.abs_nonneg b). set (x := Z.abs a) in *. set (y := Z.abs b) in *. clearbody x y.
  replace (r ^ 2) with (r * r) by ring. replace ((2 * r + 1) ^ 2) with (4 * (r * r) + 4 * r + 1) by ring. split.
  - intros H1. assert (D : x = 0 /\ y = 0 \/ 0 < Z.max x y) by lia. destruct D as [[-> ->]|D].
    + change (Z.max 0 0) with 0. split; [nia|]. intros (_ & K & _). lia.
    + split; [lia|]. intros (-> & N & E). rewrite Z.max_id in D.
      assert (y1 : y = 1) by lia. subst y. assert (r * r = 2) by lia. assert (C : r = 1 \/ 2 <= r) by lia. destruct C as [->|C]; nia.
  - intros [H1 _]. assert (M : Z.max x y <= r).
    { destruct (Z.max_spec x y) as [[L ->]|[L ->]]; nia. }
    lia.
Qed.
Print Assumptions C76_distance.

(** The outline is exactly the edge of the filled circle: its pixels that have a side in common with a
    pixel outside *)
Theorem C76_edge : forall c ctr r, sized c -> is_point ctr -> 1 <= r ->
  is_point (phys c ctr) -> circle_room (phys c ctr) r false ->
  paints c (fun fuel => drawCircle fuel c ctr r false) (fun p => edge (digital_disc r) (around ctr p)).
Proof.
  intros c ctr r Hc Hp Hr P R. destruct (C83_circle c ctr r false Hc Hp (circle_room_int _ _ _ Hr R)) as (_ & X & _).
  eapply paints_ext; [|apply X; [split; assumption|lia]]. intros p. apply ring_edge. lia.
Qed.
Print Assumptions C76_edge.
(** so nothing gets from the inside to the outside over the sides of pixels without crossing the outline *)
Theorem C76_closed : forall r (path : nat -> Z * Z) n, 1 <= r ->
  (forall i, (i < n)%nat -> beside (path i) (path (S i))) -> digital_disc r (path O) -> ~ digital_disc r (path n) ->
  exists i, (i < n)%nat /\ edge (digital_disc r) (path i).
Proof.
  intros r path n Hr. induction n as [|n IH]; intros HB H0 Hn; [contradiction|].
  assert (D : digital_disc r (path n) \/ ~ digital_disc r (path n)) by (unfold digital_disc; destruct (path n); cbn [fst snd]; lia).
  destruct D as [D|D].
  - exists n. split; [lia|]. split; [exact D|]. exists (path (S n)). split; [apply HB; lia|exact Hn].
  - destruct (IH (fun i Hi => HB i ltac:(lia)) H0 D) as (i & Hi & E). exists i. split; [lia|exact E].
Qed.
Print Assumptions C76_closed.
(** and the outline is one connected curve *)
Theorem C76_connected : forall r p q, 1 <= r -> edge (digital_disc r) p -> edge (digital_disc r) q -> walk (edge (digital_disc r)) p q.
Proof.
  intros r p q Hr Hp Hq. apply (proj2 (ring_edge r p Hr)) in Hp. apply (proj2 (ring_edge r q Hr)) in Hq.
  pose proof (ring_connected r p q Hr Hp Hq) as W.
  clear Hp Hq. induction W as [p H|p q q' W IH T H]; [constructor; apply ring_edge; assumption|].
  eapply walk_step; [exact IH|exact T|]. apply ring_edge; assumption.
Qed.
Print Assumptions C76_connected.
(** Circles with the same centre never share a pixel and lie inside each other ... *)
Theorem C76_nested : forall r r' q, 1 <= r -> r < r' -> digital_disc r q -> digital_disc r' q /\ ~ edge (digital_disc r') q.
Proof.
  intros r r' q Hr Hlt H. rewrite <- ring_edge by lia. destruct q as [a b]. unfold digital_disc, ring in *. cbn [fst snd] in *.
  pose proof (Z.abs_nonneg a). pose proof (Z.abs_nonneg b). set (x := Z.abs a) in *. set (y := Z.abs b) in *. clearbody x y. destruct H as [HD _].
  assert (M : Z.max x y <= r) by (destruct (Z.max_spec x y) as [[L ->]|[L ->]]; nia).
  assert (R : r * r + 2 * r + 1 <= r' * r') by nia. split; [split|].
  - lia.
  - intros (-> & N & E). lia.
  - intros [[L _] _]. lia.
Qed.
Print Assumptions C76_nested.
(** ... but do not cover the plane: between the outlines of radius 8 and 9 the pixel (6, 6) is free *)
Theorem C76_cover_refuted : exists r q, 1 <= r /\ digital_disc (r + 1) q /\ ~ edge (digital_disc (r + 1)) q /\ ~ digital_disc r q.
Proof.
  exists 8, (6, 6). split; [lia|]. rewrite <- ring_edge by lia. unfold digital_disc, ring. cbn. lia.
Qed.
Print Assumptions C76_cover_refuted.
(** a circle of 500 million pixels around the corner of a small canvas has room *)
Example C76_room_case : let c := mkCanvas 8 8 R90 in
  sized c /\ is_point (0, 0) /\ is_point (phys c (0, 0)) /\ circle_room (phys c (0, 0)) 500000000 true.
Proof. cbv zeta. unfold sized, is_point, circle_room, is_int, INT_MIN, INT_MAX. cbn. do 3 (split; [lia|]). do 4 (split; [lia|]). apply error_fits_small. lia. Qed.
(** radius 4: the diagonal pixel (3, 3) is left out, its neighbours are on the outline *)
Example C76_case : ~ digital_disc 4 (3, 3) /\ edge (digital_disc 4) (3, 2) /\ edge (digital_disc 4) (-4, 1) /\ digital_disc 4 (0, 0) /\ ~ digital_disc 4 (5, 0) /\
  ~ edge (digital_disc 4) (0, 0).
Proof. rewrite <- !ring_edge by lia. unfold digital_disc, ring. cbn. lia. Qed.
