(** Properties of graphics/BaseGeometry.h and of the rotation of graphics/Canvas (C20, C21). *)
From Verif Require Import Base M_Geometry S_Graphics S_Paint S_Ranges L_Geometry L_Canvas.

(** C20: corners are the extreme pixels of a rectangle. *)
Theorem C20_corners : forall r bl tr br,
  0 < fst (sz r) -> 0 < snd (sz r) ->
  bottomLeft r = Ok bl -> topRight r = Ok tr -> bottomRight r = Ok br ->
  in_box (tl r) (sz r) (tl r) /\ in_box (tl r) (sz r) bl /\
  in_box (tl r) (sz r) tr /\ in_box (tl r) (sz r) br /\
  forall q, in_box (tl r) (sz r) q ->
    fst (tl r) <= fst q <= fst br /\ snd (tl r) <= snd q <= snd br /\
    fst bl = fst (tl r) /\ snd bl = snd br /\ fst tr = fst br /\ snd tr = snd (tl r).
Proof.
  intros r bl tr br Hw Hh H1 H2 H3.
  apply bottomLeft_val in H1. apply topRight_val in H2. apply bottomRight_val in H3. subst.
  unfold in_box. cbn [fst snd]. repeat split; intros; lia.
Qed.
Print Assumptions C20_corners.

(** for a rectangle of positive size with [int] fields: the last corner is defined exactly if its
    coordinates are ints, the other two only if the coordinate one further is *)
Theorem C20_corners_defined : forall r,
  is_int (fst (tl r)) -> is_int (snd (tl r)) -> 0 < fst (sz r) -> 0 < snd (sz r) -> is_int (fst (sz r)) -> is_int (snd (sz r)) ->
  ((exists q, bottomLeft r = Ok q) <-> is_int (snd (tl r) + snd (sz r))) /\
  ((exists q, topRight r = Ok q) <-> is_int (fst (tl r) + fst (sz r))) /\
  ((exists q, bottomRight r = Ok q) <-> is_int (fst (tl r) + fst (sz r) - 1) /\ is_int (snd (tl r) + snd (sz r) - 1)).
Proof.
  intros [[x y] [w h]] Hx Hy Hw Hh Iw Ih. cbn [tl sz fst snd] in *.
  assert (C : forall a l, is_int a -> 0 < l -> ((exists q, (do b <- chk (a + l); chk (b - 1)) = Ok q) <-> is_int (a + l))).
  { intros a l Ha Hl. unfold is_int in *. split.
    - intros [q H]. apply bind_inv in H. destruct H as [b [H1 _]]. unfold chk, in_int in H1. destruct ((INT_MIN <=? a + l) && (a + l <=? INT_MAX)) eqn:EI in H1; [apply andb_true_iff in EI; lia|discriminate H1].
    - intros H. rewrite chk_ok by (unfold is_int; lia). cbn [bind]. rewrite chk_ok by (unfold is_int, INT_MIN, INT_MAX in *; lia). eexists. reflexivity. }
  split; [|split].
  - rewrite <- C by assumption. unfold bottomLeft. cbn [tl sz fst snd]. destruct (chk (y + h)) as [a| |]; cbn [bind]; [|split; intros [q H]; discriminate H..].
    destruct (chk (a - 1)); cbn [bind]; split; intros [q H]; try discriminate H; eexists; reflexivity.
  - rewrite <- C by assumption. unfold topRight. cbn [tl sz fst snd]. destruct (chk (x + w)) as [a| |]; cbn [bind]; [|split; intros [q H]; discriminate H..].
    destruct (chk (a - 1)); cbn [bind]; split; intros [q H]; try discriminate H; eexists; reflexivity.
  - unfold bottomRight. cbn [tl sz].
    assert (E : size_sub (w, h) (1, 1) = Ok (w - 1, h - 1)) by (apply size_sub_iff; cbn [fst snd]; unfold is_int, INT_MIN, INT_MAX in *; split; [reflexivity|lia]).
    rewrite E. cbn [bind]. replace (x + w - 1) with (x + (w - 1)) by lia. replace (y + h - 1) with (y + (h - 1)) by lia. split.
    + intros [q H]. apply pt_add_iff in H. cbn [fst snd] in H. tauto.
    + intros [A B]. eexists. apply pt_add_iff. cbn [fst snd]. split; [reflexivity|]. split; assumption.
Qed.
Print Assumptions C20_corners_defined.
(** so a rectangle that ends with the last [int] has a last corner but no bottom left one *)
Theorem C20_corners_refuted : exists r br, 0 < fst (sz r) /\ 0 < snd (sz r) /\
  (forall q, in_box (tl r) (sz r) q -> is_int (fst q) /\ is_int (snd q)) /\ bottomRight r = Ok br /\ bottomLeft r = UB.
Proof.
  exists (mkRect (0, 2147483640) (3, 8)), (2, 2147483647). split; [cbn; lia|]. split; [cbn; lia|]. split; [|split; reflexivity].
  intros [x y] H. unfold in_box in H. cbn [tl sz fst snd] in H. unfold is_int, INT_MIN, INT_MAX. cbn [fst snd]. lia.
Qed.
Print Assumptions C20_corners_refuted.

Example C20_corners_case :
  bottomLeft (mkRect (3, -2) (4, 5)) = Ok (3, 2) /\ topRight (mkRect (3, -2) (4, 5)) = Ok (6, -2)
  /\ bottomRight (mkRect (3, -2) (4, 5)) = Ok (6, 2).
Proof. repeat split. Qed.

(** C20: translating a rectangle translates its set of pixels; [+=] agrees with [+]. *)
Theorem C20_translate : forall r s,
  rect_add_assign r s = rect_add r s /\
  ((exists r', rect_add r s = Ok r') <-> is_int (fst (tl r) + fst s) /\ is_int (snd (tl r) + snd s)) /\
  forall r', rect_add r s = Ok r' -> sz r' = sz r /\
  forall x y, in_box (tl r') (sz r') (x + fst s, y + snd s) <-> in_box (tl r) (sz r) (x, y).
Proof.
  intros r s. split; [reflexivity|]. split.
  { unfold rect_add. split.
    - intros [r' H]. apply bind_inv in H. destruct H as [p [H _]]. apply pt_add_iff in H. tauto.
    - intros H. eexists. rewrite (proj2 (pt_add_iff _ _ _) (conj eq_refl H)). reflexivity. }
  intros r' H. unfold rect_add in H. apply bind_inv in H. destruct H as [p [H1 H2]]. apply Ok_inj in H2. subst.
  apply pt_add_iff in H1. destruct H1 as [-> _]. split; [reflexivity|]. intros x y. unfold in_box. cbn [tl sz fst snd]. lia.
Qed.
Print Assumptions C20_translate.
Example C20_translate_case : rect_add (mkRect (3, -2) (4, 5)) (10, 20) = Ok (mkRect (13, 18) (4, 5)).
Proof. reflexivity. Qed.

(** C20: point and size arithmetic is the integer arithmetic of the coordinates, defined exactly
    when both results are ints. *)
Theorem C20_arith : forall p s q,
  (pt_add p s = Ok q <->
     q = (fst p + fst s, snd p + snd s) /\ is_int (fst p + fst s) /\ is_int (snd p + snd s)) /\
  pt_add_assign p s = pt_add p s /\
  (size_add p s = Ok q <->
     q = (fst p + fst s, snd p + snd s) /\ is_int (fst p + fst s) /\ is_int (snd p + snd s)) /\
  (size_sub p s = Ok q <->
     q = (fst p - fst s, snd p - snd s) /\ is_int (fst p - fst s) /\ is_int (snd p - snd s)) /\
  (pt_eq p q = true <-> p = q) /\ (pt_ne p q = true <-> p <> q).
Proof.
  intros p s q. split; [apply pt_add_iff|]. split; [reflexivity|]. split; [rewrite size_add_eq; apply pt_add_iff|].
  split; [apply size_sub_iff|]. split; [apply pt_eq_iff|].
  rewrite pt_ne_neg, negb_true_iff, <- not_true_iff_false, pt_eq_iff. tauto.
Qed.
Print Assumptions C20_arith.

Theorem C20_assoc : forall p s t a b u v,
  pt_add p s = Ok a -> pt_add a t = Ok b -> size_add s t = Ok u -> pt_add p u = Ok v -> b = v.
Proof.
  intros p s t a b u v H1 H2 H3 H4. rewrite size_add_eq in H3.
  apply pt_add_iff in H1, H2, H3, H4. destruct H1 as [-> _], H2 as [-> _], H3 as [-> _], H4 as [-> _].
  cbn [fst snd]. f_equal; lia.
Qed.
Print Assumptions C20_assoc.

Theorem C20_sub_self : forall s, size_sub s s = Ok (0, 0).
Proof. intros [w h]. apply size_sub_iff. cbn [fst snd]. rewrite !Z.sub_diag. split; [reflexivity|]. unfold is_int, INT_MIN, INT_MAX. lia. Qed.
Print Assumptions C20_sub_self.

Example C20_arith_case :
  pt_add (1, 2) (3, -7) = Ok (4, -5) /\ pt_add (INT_MAX, 0) (1, 0) = UB /\
  size_sub (5, 6) (5, 6) = Ok (0, 0) /\
  pt_add (4, -5) (1, 1) = Ok (5, -4) /\ size_add (3, -7) (1, 1) = Ok (4, -6) /\ pt_add (1, 2) (4, -6) = Ok (5, -4).
Proof. repeat split. Qed.

(** C21: the transform is [k] quarter turns of the logical canvas onto the frame buffer, a
    bijection of the two grids (and of the two planes).  It is defined exactly if the image has [int]
    coordinates, in particular for every point of the canvas; the matrix form agrees. *)
Theorem C21_transform : forall c p,
  0 <= cw c <= INT_MAX -> 0 <= ch c <= INT_MAX -> is_int (fst p) -> is_int (snd p) ->
  (forall q, transformPoint c p = Ok q <-> q = phys c p /\ is_int (fst q) /\ is_int (snd q)) /\
  (in_grid (cw c, ch c) (phys c p) <-> in_grid (getSize c) p) /\
  (in_grid (getSize c) p -> transformPoint c p = Ok (phys c p)) /\
  (INT_MIN < fst p -> INT_MIN < snd p ->
   (do v <- mat_mul (getTransformMatrix c) p; do s <- getShifts c; pt_add v s) = transformPoint c p).
Proof.
  intros c p Hw Hh Hx Hy. split; [apply transformPoint_iff; assumption|]. split; [apply phys_grid|]. split.
  - intros Hg. apply transformPoint_iff; try assumption. split; [reflexivity|]. apply phys_grid in Hg. unfold in_grid, in_box in Hg. cbn [fst snd] in Hg. unfold is_int, INT_MIN in *. lia.
  - intros Px Py. apply matrix_same; unfold is_int in *; lia.
Qed.
Print Assumptions C21_transform.

Theorem C21_bijection : forall c,
  (forall p q, phys c p = phys c q -> p = q) /\
  (forall q, in_grid (cw c, ch c) q -> exists p, in_grid (getSize c) p /\ phys c p = q).
Proof.
  intros c. split; [intros p q; apply phys_inj|]. intros q H. exists (logical c q).
  split; [|apply phys_logical]. apply phys_grid. rewrite phys_logical. exact H.
Qed.
Print Assumptions C21_bijection.

(** C21: a rectangle's pixels are mapped exactly onto the transformed rectangle's pixels. *)
Theorem C21_rect : forall c r,
  near_canvas c -> near_pt (tl r) -> near_pt (sz r) ->
  exists r', transformRect c r = Ok r' /\
    forall p, in_box (tl r') (sz r') (phys c p) <-> in_box (tl r) (sz r) p.
Proof.
  intros c r Hc Hp Hs. destruct (transformRect_ok c r Hc Hp Hs) as [r' [H1 [H2 _]]]. eauto.
Qed.
Print Assumptions C21_rect.
(** on a canvas of any size, for any rectangle: exactly when it is defined, and what it is then *)
Theorem C21_rect_anywhere : forall c r, sized c -> is_rect r ->
  ((exists r', transformRect c r = Ok r') <-> turn_room c r) /\
  forall r', transformRect c r = Ok r' ->
    (forall p, in_box (tl r') (sz r') (phys c p) <-> in_box (tl r) (sz r) p) /\
    sz r' = (if Nat.even (quarter (rot c)) then sz r else (snd (sz r), fst (sz r))).
Proof.
  intros c r Hc Hr. split.
  - split; [intros [r' E]; apply (transformRect_iff c r r' Hc Hr) in E; apply E|]. intros H. exists (turned c r). apply transformRect_iff; auto.
  - intros r' E. apply (transformRect_iff c r r' Hc Hr) in E. destruct E as [_ ->]. split; [intros p; apply turned_box|].
    unfold turned. destruct (rot c); reflexivity.
Qed.
Print Assumptions C21_rect_anywhere.
(** on a canvas of any size, for the rectangles on it *)
Theorem C21_rect_inside : forall c r,
  0 <= cw c <= INT_MAX -> 0 <= ch c <= INT_MAX -> 0 < fst (sz r) -> 0 < snd (sz r) ->
  (forall q, in_box (tl r) (sz r) q -> in_grid (getSize c) q) ->
  exists r', transformRect c r = Ok r' /\
    (forall p, in_box (tl r') (sz r') (phys c p) <-> in_box (tl r) (sz r) p) /\
    (forall q, in_box (tl r') (sz r') q -> in_grid (cw c, ch c) q).
Proof.
  intros c r Hw Hh Sw Sh Hin. destruct (transformRect_inside c r Hw Hh Sw Sh Hin) as [r' [E H]]. exists r'. split; [exact E|]. split; [exact H|].
  intros q Hq. rewrite <- (phys_logical c q) in Hq |- *. apply phys_grid. apply Hin. apply H. exact Hq.
Qed.
Print Assumptions C21_rect_inside.

(** rotating is only a change of the map: the frame buffer and its size stay the same, and four
    quarter turns of the logical size bring it back *)
Theorem C21_setRotation : forall c r,
  getRotation (setRotation c r) = r /\ cw (setRotation c r) = cw c /\ ch (setRotation c r) = ch c /\
  (getSize (setRotation c r) =
     if Nat.even (quarter r) then (cw c, ch c) else (ch c, cw c)).
Proof. intros c r. destruct r; repeat split. Qed.
Print Assumptions C21_setRotation.

Example C21_case :
  let c := mkCanvas 16 8 R90 in
  getSize c = (8, 16) /\ transformPoint c (2, 3) = Ok (12, 2) /\ phys c (2, 3) = (12, 2) /\
  transformRect c (mkRect (1, 2) (3, 4)) = Ok (mkRect (10, 1) (4, 3)) /\
  transformPoint (setRotation c R270) (2, 3) = Ok (3, 5) /\
  transformPoint (setRotation c R180) (2, 3) = Ok (13, 4) /\
  transformRect (mkCanvas 2147483647 1000 R90) (mkRect (10, 2147483640) (5, 7)) = Ok (mkRect (0, 10) (7, 5)) /\
  turn_room (mkCanvas 16 8 R90) (mkRect (5, -2147483630) (4, 1)) /\ ~ turn_room (mkCanvas 16 8 R90) (mkRect (5, -2147483640) (4, 1)) /\
  transformRect c (mkRect (5, -2147483640) (4, 1)) = UB.
Proof.
  repeat (split; [reflexivity|]). split; [repeat split; vm_compute; congruence|]. split; [|reflexivity]. intros [[H _] _]. vm_compute in H. apply (proj2 H). reflexivity.
Qed.
