(** C70: the drawings of the tests are the reference pictures. *)
From Coq Require Import String.
From Verif Require Import Base M_Geometry M_FrameBuffer M_Canvas M_FontText M_Pbm M_Pictures M_Scenes S_Graphics S_BufferedOut S_Pbm L_Pbm L_Scenes.

(** the tests Rotation0, Rotation180, Rotation90 and Rotation270: every assertion holds, whatever the
    uninitialised memory of the frame buffer holds *)
Theorem C70_rotations : forall sg init, zlen init = 16800 -> bytes init ->
  testRotation sg R0 portrait (fileOfHex picture0) init = Ok true /\
  testRotation sg R180 portrait (fileOfHex picture180) init = Ok true /\
  testRotation sg R90 landscape (fileOfHex picture90) init = Ok true /\
  testRotation sg R270 landscape (fileOfHex picture270) init = Ok true.
Proof.
  intros sg init HL HB.
  assert (HH : header P1 280 480 (pbmHeader magicP1 280 480)) by (apply (pbmHeader_header magicP1)).
  assert (Q : forall rows, fileOfHex rows = pbmHeader magicP1 280 480 ++ flat_map eol (map hexLine rows)).
  { intros rows. unfold fileOfHex. rewrite flat_map_concat_map, flat_map_concat_map, map_map. reflexivity. }
  rewrite !Q. clear Q.
  split; [|split; [|split]]; (apply testRotation_true; [exact HL|exact HB|exact HH|vm_compute; reflexivity|]);
    unfold matches; (rewrite (portrait_sign sg) || rewrite (landscape_sign sg)); vm_compute; reflexivity.
Qed.
Print Assumptions C70_rotations.

(** the tests Line1, Line2 and Line3, including the redrawing with exchanged end points and in the
    other rotations *)
Theorem C70_lines : forall init init2, zlen init = 360 -> bytes init -> zlen init2 = 360 -> bytes init2 ->
  testLines scene1 (fileOf pictureLine1) again1 init init2 = Ok true /\
  testLines scene2 (fileOf pictureLine2) again2 init init2 = Ok true /\
  testLines scene3 (fileOf pictureLine3) [] init init2 = Ok true.
Proof.
  intros init init2 HL HB HL2 HB2.
  assert (HH : header P1 48 60 (pbmHeader magicP1 48 60)) by (apply (pbmHeader_header magicP1)).
  assert (Q : forall rows, fileOf ("P1"%string :: "48 60"%string :: rows) = pbmHeader magicP1 48 60 ++ flat_map eol (map txt rows)).
  { intros rows. unfold fileOf. cbn [flat_map]. rewrite !app_assoc. rewrite flat_map_concat_map, flat_map_concat_map, map_map. reflexivity. }
  unfold pictureLine1, pictureLine2, pictureLine3. rewrite !Q. clear Q.
  split; [|split]; (apply testLines_true; [exact HL|exact HB|exact HL2|exact HB2|exact HH|vm_compute; reflexivity|vm_compute; reflexivity|vm_compute; reflexivity]).
Qed.
Print Assumptions C70_lines.

(** some memory *)
Example C70_case : exists init init2, zlen init = 16800 /\ bytes init /\ zlen init2 = 360 /\ bytes init2 /\
  In 170 init /\ In 85 init2.
Proof.
  exists (repeat 170 (Z.to_nat 16800)), (repeat 85 (Z.to_nat 360)). split; [vm_compute; reflexivity|].
  split; [apply Forall_forall; intros x Hx; apply repeat_spec in Hx; subst; unfold is_byte; lia|]. split; [vm_compute; reflexivity|].
  split; [apply Forall_forall; intros x Hx; apply repeat_spec in Hx; subst; unfold is_byte; lia|].
  split; (destruct (Z.to_nat _) eqn:E; [discriminate|left; reflexivity]).
Qed.
