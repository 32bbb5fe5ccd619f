(** Lemmas about moving shapes. *)
From Verif Require Import Base S_Graphics M_Geometry M_FrameBuffer M_Canvas S_Paint S_Font S_Moves M_Font L_Geometry L_FrameBuffer L_Canvas L_Paint.

Lemma paints_ext c op S S' : paints c op S -> (forall p, S p <-> S' p) -> paints c op S'.
Proof.
  intros (l & A & B) E. exists l. split; [exact A|]. intros f H1 H2 H3 H4. destruct (B f H1 H2 H3 H4) as (f' & X1 & X2 & X3 & X4 & X5 & X6 & X7 & X8).
  exists f'. repeat (split; [assumption|]). intros p Hp. destruct (X8 p Hp) as [Y1 Y2]. split; intros H; [apply Y1|apply Y2]; rewrite E; exact H.
Qed.
Lemma phys_shift c p d : exists v, forall q, phys c (shift q d) = shift (phys (mkCanvas 0 0 (rot c)) q) v /\
  phys c p = shift (phys (mkCanvas 0 0 (rot c)) (fst p - fst d, snd p - snd d)) v.
Proof.
  exists (fst (phys c d) - fst (phys (mkCanvas 0 0 (rot c)) (0, 0)), snd (phys c d) - snd (phys (mkCanvas 0 0 (rot c)) (0, 0))).
  intros [x y]. rewrite !phys_val. destruct p as [px py], d as [dx dy]. unfold shift. cbn [rot cw ch]. destruct (rot c); cbn [fst snd]; split; apply f_equal2; lia.
Qed.
Lemma line_pixel_shift a b p v : line_pixel (shift a v) (shift b v) (shift p v) <-> line_pixel a b p.
Proof.
  assert (N : forall s e p x y, nearest (shift s (x, y)) (shift e (x, y)) (shift p (x, y)) <-> nearest s e p).
  { intros s e q x y. unfold nearest, shift. cbn [fst snd].
    replace (fst q + x - (fst s + x)) with (fst q - fst s) by ring. replace (snd e + y - (snd s + y)) with (snd e - snd s) by ring. replace (fst e + x - (fst s + x)) with (fst e - fst s) by ring.
    split; intros (H & k & R & E); (split; [lia|]); exists k; (split; [exact R|]); lia. }
  destruct v as [x y]. assert (FS : forall p, flip (shift p (x, y)) = shift (flip p) (y, x)) by reflexivity.
  unfold line_pixel. replace (snd (shift b (x, y)) - snd (shift a (x, y))) with (snd b - snd a) by (unfold shift; cbn [fst snd]; ring).
  replace (fst (shift b (x, y)) - fst (shift a (x, y))) with (fst b - fst a) by (unfold shift; cbn [fst snd]; ring).
  split.
  - intros (s & e & SE & H).
    assert (X : exists s' e', s = shift s' (x, y) /\ e = shift e' (x, y) /\ ((s', e') = (a, b) \/ (s', e') = (b, a))).
    { destruct SE as [SE|SE]; inversion SE; [exists a, b|exists b, a]; auto. }
    destruct X as (s' & e' & -> & -> & SE'). exists s', e'. split; [exact SE'|]. rewrite !FS in H. destruct H as [(A & B & C)|(A & B & C)]; [left|right]; apply (proj1 (N _ _ _ _ _)) in C;
      (split; [exact A|split; [|exact C]]); unfold shift in B; cbn [fst snd] in B; lia.
  - intros (s & e & SE & H). exists (shift s (x, y)), (shift e (x, y)). split; [destruct SE as [SE|SE]; inversion SE; auto|]. rewrite !FS.
    destruct H as [(A & B & C)|(A & B & C)]; [left|right]; (split; [exact A|split; [unfold shift; cbn [fst snd]; lia|]]); apply (proj2 (N _ _ _ _ _)); exact C.
Qed.

Lemma text_pixels_shift data gs pos d p : text_pixels data gs (shift pos d) p <-> text_pixels data gs pos (fst p - fst d, snd p - snd d).
Proof.
  unfold text_pixels, glyph_pixels, shift. cbn [fst snd].
  split; intros (n & g & E & i & j & Hi & Hj & Q & B); exists n, g; (split; [exact E|]); exists i, j; (split; [exact Hi|]); (split; [exact Hj|]); (split; [|exact B]).
  - rewrite Q. cbn [fst snd]. f_equal; ring.
  - destruct p as [x y]. cbn [fst snd] in Q. inversion Q. f_equal; lia.
Qed.
