(** What it means that a drawing operation paints a set of logical pixels. *)
From Verif Require Import Base S_Graphics M_Geometry M_FrameBuffer M_Canvas.

(** number of quarter turns of a rotation *)
Definition quarter (r : rotation) : nat :=
  match r with R0 => 0 | R90 => 1 | R180 => 2 | R270 => 3 end.
(** where the logical pixel [p] is in the frame buffer *)
Definition phys (c : canvas) (p : pt) : pt := turns (quarter (rot c)) (getSize c) p.
Definition near_canvas (c : canvas) : Prop := 0 <= cw c <= 268435456 /\ 0 <= ch c <= 268435456.

(** a frame buffer as constructed: accepted geometry and an image of its size *)
Definition fb_wf (f : fb) : Prop :=
  accepted (fw f) (fh f) (fd f) = true /\ zlen (buf f) = bufferSize (fw f) (fh f) (fd f) /\ bytes (buf f).

(** an operation that needs fuel finishes with result [a] *)
Definition completes {A} (op : nat -> res A) (a : A) : Prop :=
  exists n, forall fuel, (n <= fuel)%nat -> op fuel = Ok a.

(** the canvas [c] draws on [f] *)
Definition canvas_of (c : canvas) (f : fb) : Prop := cw c = getWidth f /\ ch c = getHeight f.
Definition fpixel (f : fb) (p : pt) : Z := pixel (getImage f) (getWidth f) (fd f) (fst p) (snd p).

(** [op] finishes, and drawing its result on any frame buffer of the canvas finishes without leaving
    the image, keeps geometry and selected colour, gives exactly the pixels of [S] the selected
    colour and leaves all others as they were *)
Definition paints (c : canvas) (op : nat -> res (list pt)) (S : pt -> Prop) : Prop :=
  exists l, completes op l /\
  forall f, fb_wf f -> fd f <> 2 -> canvas_of c f -> 0 <= selectedColor f ->
  exists f', draw c f l = Ok f' /\ fb_wf f' /\ zlen (getImage f') = zlen (getImage f) /\
    getWidth f' = getWidth f /\ getHeight f' = getHeight f /\ fd f' = fd f /\
    selectedColor f' = selectedColor f /\
    forall p, in_grid (getSize c) p ->
      (S p -> fpixel f' (phys c p) = colour (fd f) (selectedColor f)) /\
      (~ S p -> fpixel f' (phys c p) = fpixel f (phys c p)).
