(** C71: a monochrome frame buffer saved as a picture file. *)
From Verif Require Import Base M_Geometry M_FrameBuffer M_Canvas M_Pbm M_Scenes S_Graphics S_Paint S_BufferedOut S_Pbm L_Geometry L_Canvas L_FrameBuffer L_Pbm L_Scenes L_Saved P_Pbm P_Canvas.

(** the text file has one line per row and one character per pixel, as the pixels are *)
Theorem C71_text : forall f, fb_wf f -> fd f = 1 -> 0 < getWidth f -> 0 < getHeight f ->
  exists file ls, writePBM (getImage f) (getWidth f) (getHeight f) = Ok (file, true) /\
    text_picture (getWidth f) (getHeight f) ls file /\
    forall x y, 0 <= x < getWidth f -> 0 <= y < getHeight f -> shown ls (x, y) = (fpixel f (x, y) =? 1).
Proof. exact saved_text. Qed.
Print Assumptions C71_text.

(** what is drawn on a cleared canvas, in any rotation, is what the file shows *)
Theorem C71_drawn : forall c f op S, fb_wf f -> fd f = 1 -> selectedColor f = 1 -> canvas_of c f ->
  0 < getWidth f -> 0 < getHeight f -> paints c op S ->
  exists f0 l f1 file ls, clear f 0 = Ok f0 /\ completes op l /\ draw c f0 l = Ok f1 /\
    writePBM (getImage f1) (getWidth f) (getHeight f) = Ok (file, true) /\
    text_picture (getWidth f) (getHeight f) ls file /\
    forall p, in_grid (getSize c) p -> (S p -> shown ls (phys c p) = true) /\ (~ S p -> shown ls (phys c p) = false).
Proof.
  intros c f op S Wf Hd Hs Hc HW HH (l & Cl & P).
  destruct (cleared f (0, 0) Wf Hd) as (f0 & E0 & W0 & D0 & GW0 & GH0 & S0 & _); [unfold in_grid, in_box; cbn [fst snd]; lia|].
  destruct (P f0 W0 ltac:(lia)) as (f1 & E1 & W1 & _ & GW1 & GH1 & D1 & _ & Q); [destruct Hc; split; congruence|lia|].
  destruct (saved_text f1) as (file & ls & EF & TP & HS); [exact W1|congruence|lia|lia|].
  rewrite GW1, GH1, GW0, GH0 in *. exists f0, l, f1, file, ls. repeat (split; [assumption|]).
  intros p Hp. assert (Hq : in_grid (getWidth f, getHeight f) (phys c p)).
  { destruct Hc as [C1 C2]. rewrite <- C1, <- C2. apply phys_grid. exact Hp. }
  destruct (Q p Hp) as [Q1 Q2]. destruct (phys c p) as [x y] eqn:EP. unfold in_grid, in_box in Hq. cbn [fst snd] in Hq.
  rewrite HS by lia. split.
  - intros H. rewrite Q1 by exact H. rewrite D0, S0, Hs. reflexivity.
  - intros H. rewrite Q2 by exact H. destruct (cleared f (x, y) Wf Hd) as (f0' & E0' & _ & _ & _ & _ & _ & Z0); [unfold in_grid, in_box; cbn [fst snd]; lia|].
    rewrite E0 in E0'. apply Ok_inj in E0'. subst f0'. rewrite Z0. reflexivity.
Qed.
Print Assumptions C71_drawn.

(** the tests' comparison accepts a file, in any rotation, exactly if reading it gives the size and the
    bytes of the frame buffer *)
Theorem C71_check : forall c f file, canvas_of c f ->
  (checkBuffer c f file = Ok true <-> readPBM file = Ok (Some (getWidth f, getHeight f, getImage f))).
Proof. exact checkBuffer_iff. Qed.
Print Assumptions C71_check.

(** so a saved frame buffer is told from every other one *)
Theorem C71_compare : forall f g c, fb_wf f -> fd f = 1 -> 0 < getWidth f -> 0 < getHeight f -> canvas_of c g ->
  exists text binary, writePBM (getImage f) (getWidth f) (getHeight f) = Ok (text, true) /\
    writePBMBinary (getImage f) (getWidth f) (getHeight f) = Ok (binary, true) /\
    let same := getImage g = getImage f /\ getWidth g = getWidth f /\ getHeight g = getHeight f in
    (checkBuffer c g text = Ok true <-> same) /\ (checkBuffer c g binary = Ok true <-> same).
Proof.
  intros f g c Wf Hd HW HH Hc. destruct (mono_size f Wf Hd) as (k & Hk & EW & _ & EL & HM).
  destruct (C65_whole_bytes (getImage f) (getWidth f) (getHeight f) (getImage g) (getWidth g) (getHeight g)) as (text & binary & E1 & E2 & C1 & C2).
  - unfold picture_size, INT_MAX in *. lia.
  - apply Wf.
  - rewrite EW, Z.mul_comm. apply Z.mod_mul. lia.
  - unfold image_bytes. rewrite EL, EW. replace (8 * k * getHeight f + 7) with (7 + (k * getHeight f) * 8) by lia.
    rewrite Z.div_add by lia. reflexivity.
  - exists text, binary. split; [exact E1|]. split; [exact E2|]. intros same. rewrite !checkBuffer_iff by exact Hc.
    rewrite C66_compare in C1, C2. split; [exact C1|exact C2].
Qed.
Print Assumptions C71_compare.

(** a frame buffer of 8 x 2 pixels, turned by a quarter *)
Example C71_case :
  let f := mkFb 8 2 1 [170; 85] 1 in
  let c := mkCanvas 8 2 R90 in
  fb_wf f /\ canvas_of c f /\ near_canvas c /\
  paints c (fun _ => drawRectangle c (mkRect (0, 1) (2, 3))) (border (0, 1) (2, 3)) /\
  (exists l f0 f1, drawRectangle c (mkRect (0, 1) (2, 3)) = Ok l /\ clear f 0 = Ok f0 /\ draw c f0 l = Ok f1 /\
     getImage f1 = [14; 14] /\
     exists file, writePBM [14; 14] 8 2 = Ok (file, true) /\ checkBuffer c f1 file = Ok true /\ checkBuffer c f0 file = Ok false).
Proof.
  cbn zeta. split; [repeat split; repeat constructor; unfold is_byte; lia|]. split; [split; reflexivity|].
  split; [unfold near_canvas; cbn [cw ch]; lia|].
  split; [apply C29_border; unfold near_canvas, near_pt, near; cbn [cw ch fst snd tl sz]; lia|].
  eexists _, _, _. split; [vm_compute; reflexivity|]. split; [vm_compute; reflexivity|]. split; [vm_compute; reflexivity|].
  split; [vm_compute; reflexivity|]. eexists. split; [vm_compute; reflexivity|]. split; vm_compute; reflexivity.
Qed.
