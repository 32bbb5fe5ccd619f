(** The drawings of the tests and their comparison with the reference pictures
    (tests/MonochromeFrameBufferTest.cpp).  Simplifications: the arithmetic on the two sizes used there
    (48 x 60 and 280 x 480) is far from overflow and is not range-checked; an assertion that fails does
    not end the test, so that the result is the conjunction of all of them; loops get fuel 1000, more
    than the sides of these frame buffers. *)
From Verif Require Import Base M_Geometry M_FrameBuffer M_Canvas M_Font M_FontData M_Pbm.

(** a sequence of drawing calls on one canvas: each gives the points it plots *)
Definition scene : Type := list (canvas -> res (list pt)).
Fixpoint drawScene (c : canvas) (f : fb) (s : scene) : res fb :=
  match s with
  | [] => Ok f
  | op :: s => do ps <- op c; do f' <- draw c f ps; drawScene c f' s
  end.
Definition fuel : nat := Z.to_nat 1000.
Definition line (a b : pt) : canvas -> res (list pt) := fun c => drawLine fuel c a b.

(** "Hello World!" *)
Definition hello : list Z := [72; 101; 108; 108; 111; 32; 87; 111; 114; 108; 100; 33].

(** MonochromeFrameBufferTest.cpp:13-33, [drawPortrait] after its [clear(false)] *)
Definition portrait (sg : bool) (size : pt) : scene :=
  let width := fst size in
  let p1 := (Z.quot width 2, 30) in
  let p2 := (45, (width - 60) - 24) in
  let p3 := (width - 45, (width - 60) - 24) in
  [fun c => drawRectangle c (mkRect (0, 0) size);
   fun c => do s <- size_sub size (20, 20); drawRectangle c (mkRect (10, 10) s);
   fun c => do s <- size_sub size (40, 40); drawRectangle c (mkRect (20, 20) s);
   fun c => drawCircle fuel c (Z.quot width 2, Z.quot width 2) (Z.quot (width - 60) 2) false;
   fun c => drawCircle fuel c (Z.quot width 2, Z.quot width 2) (Z.quot (width - 60) 2 - 55) true;
   line p1 p2; line p2 p3; line p3 p1;
   fun c => drawRectangle c (mkRect (30, width - 20) (width - 60, 80));
   fun c => drawFilledRectangle fuel c (mkRect (50, width) (width - 100, 40));
   fun c => drawStringAt fuel sg c FreeSans15pt7b (60, width + 100) hello].

(** MonochromeFrameBufferTest.cpp:35-56, [drawLandscape] after its [clear(false)] *)
Definition landscape (sg : bool) (size : pt) : scene :=
  let width := fst size in
  let height := snd size in
  let p1 := (Z.quot height 2, 30) in
  let p2 := (45, (height - 60) - 24) in
  let p3 := (height - 45, (height - 60) - 24) in
  [fun c => drawRectangle c (mkRect (0, 0) size);
   fun c => do s <- size_sub size (20, 20); drawRectangle c (mkRect (10, 10) s);
   fun c => do s <- size_sub size (40, 40); drawRectangle c (mkRect (20, 20) s);
   fun c => drawCircle fuel c (Z.quot height 2, Z.quot height 2) (Z.quot (height - 60) 2) false;
   fun c => drawCircle fuel c (Z.quot height 2, Z.quot height 2) (Z.quot (height - 60) 2 - 55) true;
   line p1 p2; line p2 p3; line p3 p1;
   fun c => drawRectangle c (mkRect (height - 20, 30) (width - height - 10, 80));
   fun c => drawFilledRectangle fuel c (mkRect (height, 50) (width - height - 50, 40));
   line (height, 160) (height + 100, 160);
   fun c => drawStringAt fuel sg c FreeSans15pt7b (height, 160) hello].

(** a frame buffer after [setRotation(r)], [clear(false)] and the drawing calls *)
Definition redraw (r : rotation) (f : fb) (s : canvas -> scene) : res fb :=
  let c := setRotation (newCanvas f) r in
  do g <- clear f 0; drawScene c g (s c).

(** MonochromeFrameBufferTest.cpp:58-79, [checkBuffer]: sizes and bytes of the reference picture; the
    last comparison is [memcmp] over the whole image *)
Definition checkBuffer (c : canvas) (f : fb) (file : list Z) : res bool :=
  do r <- readPBM file;
  match r with
  | None => Ok false
  | Some (w, h, img) =>
      let size := getSize c in
      Ok ((zlen img =? zlen (getImage f)) &&
          match getRotation c with
          | R0 | R180 => (w =? fst size) && (h =? snd size)
          | R90 | R270 => (w =? snd size) && (h =? fst size)
          end && eqbl img (getImage f))
  end.

(** MonochromeFrameBufferTest.cpp:182-220, the four tests Rotation0, Rotation180, Rotation90, Rotation270;
    [init] is what the memory of the frame buffer holds before *)
Definition testRotation (sg : bool) (r : rotation) (draw : bool -> pt -> scene) (file init : list Z) : res bool :=
  do f <- construct 280 480 1 init;
  do g <- redraw r f (fun c => draw sg (getSize c));
  checkBuffer (setRotation (newCanvas f) r) g file.

(** MonochromeFrameBufferTest.cpp:83-117, 120-160 and 162-180: the tests Line1, Line2, Line3.  The second
    frame buffer is drawn on again and again, in the given rotations, and must look as the first one. *)
Fixpoint redrawAll (f : fb) (image : list Z) (ss : list (rotation * scene)) : res bool :=
  match ss with
  | [] => Ok true
  | (r, s) :: ss =>
      do g <- redraw r f (fun _ => s);
      do ok <- redrawAll g image ss;
      Ok (eqbl image (getImage g) && ok)
  end.
(** MonochromeFrameBufferTest.cpp:83-117, 120-160, 162-180: the sequence of the three tests *)
Definition testLines (s : scene) (file : list Z) (again : list (rotation * scene)) (init init2 : list Z) : res bool :=
  do f <- construct 48 60 1 init;
  do g <- redraw R0 f (fun _ => s);
  do ok <- checkBuffer (newCanvas f) g file;
  do f2 <- construct 48 60 1 init2;
  do same <- redrawAll f2 (getImage g) again;
  Ok (ok && same).

(** MonochromeFrameBufferTest.cpp:90-91 *)
Definition scene1 : scene := [line (0, 0) (47, 59); line (47, 0) (0, 59)].
(** MonochromeFrameBufferTest.cpp:95-116 *)
Definition again1 : list (rotation * scene) :=
  let back := [line (47, 59) (0, 0); line (0, 59) (47, 0)] in
  let side := [line (0, 0) (59, 47); line (0, 47) (59, 0)] in
  [(R0, back); (R180, back); (R90, side); (R270, side)].

(** MonochromeFrameBufferTest.cpp:127-134 *)
Definition scene2 : scene := [line (1, 20) (46, 40); line (1, 40) (46, 20)].
(** MonochromeFrameBufferTest.cpp:138-159 *)
Definition again2 : list (rotation * scene) :=
  [(R0, [line (46, 40) (1, 20); line (46, 20) (1, 40)]);
   (R180, [line (1, 19) (46, 39); line (1, 39) (46, 19)]);
   (R90, [line (20, 1) (40, 46); line (40, 1) (20, 46)]);
   (R270, [line (19, 1) (39, 46); line (39, 1) (19, 46)])].

(** MonochromeFrameBufferTest.cpp:166-178 *)
Definition scene3 : scene :=
  let step := 19 in
  let shift := 3 in
  [line (step + shift, shift) (shift, step + shift);
   line (step + shift + 1, shift) (2 * step + shift + 1, step + shift);
   line (shift, step + shift + 1) (step + shift, 2 * step + shift + 1);
   line (step + shift + 1, 2 * step + shift + 1) (2 * step + shift + 1, step + shift + 1);
   line (2, 1) (45, 1); line (45, 46) (2, 46); line (1, 2) (1, 45); line (46, 45) (46, 2)].
