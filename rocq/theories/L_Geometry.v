(** Lemmas about the geometry and rotation model. *)
From Verif Require Import Base M_Geometry S_Graphics S_Paint.

Ltac ck := repeat (rewrite chk_ok by (unfold INT_MIN, INT_MAX in *; lia); cbn [bind]).
Ltac nr := unfold near_pt, near in *; cbn [fst snd tl sz] in *.

Lemma chk_inv z a : chk z = Ok a -> a = z /\ INT_MIN <= z <= INT_MAX.
Proof.
  unfold chk. destruct (in_int z) eqn:E; [|discriminate]. intros H. apply Ok_inj in H.
  apply in_int_true in E. auto.
Qed.
Lemma bind_inv {A B} (m : res A) (k : A -> res B) b :
  bind m k = Ok b -> exists a, m = Ok a /\ k a = Ok b.
Proof. destruct m; cbn [bind]; try discriminate. eauto. Qed.

Ltac inv_ok :=
  repeat match goal with
  | H : bind ?m _ = Ok _ |- _ => apply bind_inv in H; destruct H as [? [? H]]
  | H : chk _ = Ok _ |- _ => apply chk_inv in H; destruct H as [-> ?]
  | H : Ok _ = Ok _ |- _ => apply Ok_inj in H; subst
  end; cbn [fst snd tl sz] in *.


Lemma pt_add_iff p s q :
  pt_add p s = Ok q <->
  q = (fst p + fst s, snd p + snd s) /\ is_int (fst p + fst s) /\ is_int (snd p + snd s).
Proof.
  unfold pt_add, is_int. split.
  - intros H. inv_ok. auto.
  - intros [-> [H1 H2]]. rewrite !chk_ok by assumption. reflexivity.
Qed.
Lemma size_add_eq s t : size_add s t = pt_add s t.
Proof. reflexivity. Qed.
Lemma size_sub_iff p s q :
  size_sub p s = Ok q <->
  q = (fst p - fst s, snd p - snd s) /\ is_int (fst p - fst s) /\ is_int (snd p - snd s).
Proof.
  unfold size_sub, is_int. split.
  - intros H. inv_ok. auto.
  - intros [-> [H1 H2]]. rewrite !chk_ok by assumption. reflexivity.
Qed.
Lemma pt_eq_iff p q : pt_eq p q = true <-> p = q.
Proof.
  destruct p, q. unfold pt_eq. cbn [fst snd]. rewrite andb_true_iff, !Z.eqb_eq. split; [intros [-> ->]; reflexivity|].
  intros H. inversion H. auto.
Qed.
Lemma pt_ne_neg p q : pt_ne p q = negb (pt_eq p q).
Proof. unfold pt_ne, pt_eq. rewrite negb_andb. reflexivity. Qed.

Lemma bottomLeft_val r q : bottomLeft r = Ok q -> q = (fst (tl r), snd (tl r) + snd (sz r) - 1).
Proof. unfold bottomLeft. intros H. inv_ok. reflexivity. Qed.
Lemma topRight_val r q : topRight r = Ok q -> q = (fst (tl r) + fst (sz r) - 1, snd (tl r)).
Proof. unfold topRight. intros H. inv_ok. reflexivity. Qed.
Lemma bottomRight_val r q :
  bottomRight r = Ok q -> q = (fst (tl r) + fst (sz r) - 1, snd (tl r) + snd (sz r) - 1).
Proof.
  unfold bottomRight. intros H. apply bind_inv in H. destruct H as [s [H1 H2]].
  apply size_sub_iff in H1. destruct H1 as [-> _]. apply pt_add_iff in H2. destruct H2 as [-> _].
  cbn [fst snd]. f_equal; lia.
Qed.

(** ** Rotation *)
Lemma phys_val c p :
  phys c p = match rot c with
             | R0 => p
             | R90 => (cw c - 1 - snd p, fst p)
             | R180 => (cw c - 1 - fst p, ch c - 1 - snd p)
             | R270 => (snd p, ch c - 1 - fst p)
             end.
Proof.
  unfold phys, getSize. destruct c as [w h r], p as [x y]; destruct r; cbn [rot quarter turns turn fst snd cw ch];
    unfold turn; cbn [fst snd]; try reflexivity; f_equal; lia.
Qed.

Lemma transformPoint_ok c p : near_canvas c -> near_pt p -> transformPoint c p = Ok (phys c p).
Proof.
  intros Hc Hp. rewrite phys_val. unfold transformPoint, near_canvas in *. nr.
  destruct p as [x y]; destruct (rot c); cbn [fst snd] in *; ck; reflexivity.
Qed.

Definition logical (c : canvas) (q : pt) : pt :=
  match rot c with
  | R0 => q
  | R90 => (snd q, cw c - 1 - fst q)
  | R180 => (cw c - 1 - fst q, ch c - 1 - snd q)
  | R270 => (ch c - 1 - snd q, fst q)
  end.
Lemma logical_phys c p : logical c (phys c p) = p.
Proof.
  rewrite phys_val. unfold logical. destruct p; destruct (rot c); cbn [fst snd]; try reflexivity; f_equal; lia.
Qed.
Lemma phys_logical c p : phys c (logical c p) = p.
Proof.
  rewrite phys_val. unfold logical. destruct p; destruct (rot c); cbn [fst snd]; try reflexivity; f_equal; lia.
Qed.
Lemma phys_grid c p : in_grid (cw c, ch c) (phys c p) <-> in_grid (getSize c) p.
Proof.
  rewrite phys_val. unfold in_grid, in_box, getSize. destruct (rot c); cbn [fst snd]; lia.
Qed.
Lemma phys_inj c p q : phys c p = phys c q -> p = q.
Proof. intros H. rewrite <- (logical_phys c p), <- (logical_phys c q), H. reflexivity. Qed.


Lemma transformRect_ok c r :
  near_canvas c -> near_pt (tl r) -> near_pt (sz r) ->
  exists r', transformRect c r = Ok r' /\
    (forall p, in_box (tl r') (sz r') (phys c p) <-> in_box (tl r) (sz r) p) /\
    sz r' = (match rot c with R0 | R180 => sz r | _ => (snd (sz r), fst (sz r)) end) /\
    -536870913 <= fst (tl r') <= 805306368 /\ -536870913 <= snd (tl r') <= 805306368.
Proof.
  intros Hc Hp Hs. destruct r as [[x y] [w h]], c as [W H ro]. unfold near_canvas in *. nr.
  unfold transformRect. cbn [cw ch rot tl sz] in *.
  destruct ro.
  - eexists. split; [reflexivity|].
    split; [|cbn [tl sz fst snd]; split; [reflexivity|lia]]. intros p. rewrite phys_val. cbn [rot]. tauto.
  - unfold bottomLeft, transformPoint. cbn [cw ch rot tl sz fst snd]. ck. cbn [fst snd]. ck.
    eexists. split; [reflexivity|]. cbn [tl sz fst snd]. split; [|split; [reflexivity|lia]].
    intros p. rewrite phys_val. unfold in_box. cbn [rot cw ch fst snd]. lia.
  - unfold bottomRight, size_sub, pt_add, transformPoint. cbn [cw ch rot tl sz fst snd]. ck. cbn [fst snd]. ck. cbn [fst snd]. ck.
    eexists. split; [reflexivity|]. cbn [tl sz fst snd]. split; [|split; [reflexivity|lia]].
    intros p. rewrite phys_val. unfold in_box. cbn [rot cw ch fst snd]. lia.
  - unfold topRight, transformPoint. cbn [cw ch rot tl sz fst snd]. ck. cbn [fst snd]. ck.
    eexists. split; [reflexivity|]. cbn [tl sz fst snd]. split; [|split; [reflexivity|lia]].
    intros p. rewrite phys_val. unfold in_box. cbn [rot cw ch fst snd]. lia.
Qed.

(** ** Without the bound on the coordinates *)
Lemma transformPoint_iff c p : 0 <= cw c <= INT_MAX -> 0 <= ch c <= INT_MAX -> is_int (fst p) -> is_int (snd p) ->
  forall q, transformPoint c p = Ok q <-> q = phys c p /\ is_int (fst q) /\ is_int (snd q).
Proof.
  intros Hw Hh Hx Hy q. rewrite phys_val. unfold transformPoint, is_int, INT_MIN, INT_MAX in *. destruct (rot c).
  - split; [intros H; apply Ok_inj in H; subst q; destruct p; auto|]. intros [-> _]. destruct p; reflexivity.
  - ck. split.
    + intros H. apply bind_inv in H. destruct H as [x [H1 H2]]. apply chk_inv in H1. apply Ok_inj in H2. subst q. cbn [fst snd]. unfold INT_MIN, INT_MAX in *. destruct H1 as [-> H1]. auto.
    + intros [-> H]. cbn [fst snd] in H. ck. reflexivity.
  - ck. split.
    + intros H. apply bind_inv in H. destruct H as [x [H1 H2]]. apply chk_inv in H1. revert H2. ck. intros H2. apply bind_inv in H2. destruct H2 as [y [H2 H3]]. apply chk_inv in H2. apply Ok_inj in H3. subst q. cbn [fst snd]. unfold INT_MIN, INT_MAX in *. destruct H1 as [-> H1], H2 as [-> H2]. auto.
    + intros [-> H]. cbn [fst snd] in H. ck. reflexivity.
  - ck. split.
    + intros H. apply bind_inv in H. destruct H as [x [H1 H2]]. apply chk_inv in H1. apply Ok_inj in H2. subst q. cbn [fst snd]. unfold INT_MIN, INT_MAX in *. destruct H1 as [-> H1]. auto.
    + intros [-> H]. cbn [fst snd] in H. ck. reflexivity.
Qed.
Lemma matrix_same c p : 0 <= cw c <= INT_MAX -> 0 <= ch c <= INT_MAX -> INT_MIN < fst p <= INT_MAX -> INT_MIN < snd p <= INT_MAX ->
  (do v <- mat_mul (getTransformMatrix c) p; do s <- getShifts c; pt_add v s) = transformPoint c p.
Proof.
  intros Hw Hh Hx Hy. unfold mat_mul, getTransformMatrix, getShifts, transformPoint, pt_add. destruct p as [x y]. cbn [fst snd] in *.
  destruct (rot c); cbn [m0 m1 m2 m3]; unfold INT_MIN, INT_MAX in *.
  - ck. cbn [fst snd]. ck. apply f_equal. apply f_equal2; lia.
  - ck. cbn [fst snd]. replace (0 * x + -1 * y + (cw c - 1)) with (cw c - 1 - y) by lia. destruct (chk (cw c - 1 - y)); cbn [bind]; try reflexivity. ck. apply f_equal. apply f_equal2; [reflexivity|lia].
  - ck. cbn [fst snd]. replace (-1 * x + 0 * y + (cw c - 1)) with (cw c - 1 - x) by lia. destruct (chk (cw c - 1 - x)); cbn [bind]; try reflexivity. ck.
    replace (0 * x + -1 * y + (ch c - 1)) with (ch c - 1 - y) by lia. reflexivity.
  - ck. cbn [fst snd]. ck. replace (-1 * x + 0 * y + (ch c - 1)) with (ch c - 1 - x) by lia. destruct (chk (ch c - 1 - x)); cbn [bind]; try reflexivity. apply f_equal. apply f_equal2; [lia|reflexivity].
Qed.
Lemma transformRect_inside c r : 0 <= cw c <= INT_MAX -> 0 <= ch c <= INT_MAX -> 0 < fst (sz r) -> 0 < snd (sz r) ->
  (forall q, in_box (tl r) (sz r) q -> in_grid (getSize c) q) ->
  exists r', transformRect c r = Ok r' /\ forall p, in_box (tl r') (sz r') (phys c p) <-> in_box (tl r) (sz r) p.
Proof.
  destruct r as [[x y] [w h]]. cbn [tl sz fst snd]. intros Hw Hh Sw Sh Hin.
  assert (A : in_grid (getSize c) (x, y)) by (apply Hin; unfold in_box; cbn [fst snd]; lia).
  assert (B : in_grid (getSize c) (x + w - 1, y + h - 1)) by (apply Hin; unfold in_box; cbn [fst snd]; lia).
  unfold transformRect, transformPoint, bottomLeft, bottomRight, topRight, size_sub, pt_add, in_grid, in_box, getSize in *.
  destruct (rot c) eqn:R; cbn [tl sz fst snd] in *; unfold INT_MIN, INT_MAX in *.
  - eexists. split; [reflexivity|]. intros p. rewrite phys_val, R. reflexivity.
  - ck. cbn [fst snd]. ck. eexists. split; [reflexivity|]. intros p. rewrite phys_val, R. cbn [tl sz fst snd]. lia.
  - ck. cbn [fst snd]. ck. cbn [fst snd]. ck. eexists. split; [reflexivity|]. intros p. rewrite phys_val, R. cbn [tl sz fst snd]. lia.
  - ck. cbn [fst snd]. ck. eexists. split; [reflexivity|]. intros p. rewrite phys_val, R. cbn [tl sz fst snd]. lia.
Qed.
