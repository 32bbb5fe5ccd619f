(** Specification vocabulary for sequences of drawing calls. *)
From Verif Require Import Base S_Graphics M_Geometry M_FrameBuffer M_Canvas M_Drawing S_Paint.

(** what a call is for *)
Inductive step :=
| Colour (c : Z)
| Ground (c : Z)
| Turned (r : rotation)
| Shape (S : pt -> Prop).          (* a set of logical pixels *)
(** [ks], called on the canvas [c], are for [steps]: each drawing call paints its shape in the rotation
    it is made in *)
Inductive meant (c : canvas) : list command -> list step -> Prop :=
| m_nil : meant c [] []
| m_colour : forall col ks steps, 0 <= col -> meant c ks steps -> meant c (SetColor col :: ks) (Colour col :: steps)
| m_ground : forall col ks steps, 0 <= col -> meant c ks steps -> meant c (Clear col :: ks) (Ground col :: steps)
| m_turned : forall r ks steps, meant (setRotation c r) ks steps -> meant c (SetRotation r :: ks) (Turned r :: steps)
| m_shape : forall op S ks steps, paints c (op c) S -> meant c ks steps -> meant c (Draw op :: ks) (Shape S :: steps).

(** The painter's rule: what the frame-buffer pixel [q] shows after the steps when it showed [v] before
    and the colour [sel] was selected: the last step that covers it decides. *)
Inductive shows (d : Z) (q : pt) : canvas -> list step -> Z -> Z -> Z -> Prop :=
| s_nil : forall c sel v, shows d q c [] sel v v
| s_colour : forall c col steps sel v w, shows d q c steps (col mod 2 ^ d) v w -> shows d q c (Colour col :: steps) sel v w
| s_ground : forall c col steps sel v w, shows d q c steps sel (colour d col) w -> shows d q c (Ground col :: steps) sel v w
| s_turned : forall c r steps sel v w, shows d q (setRotation c r) steps sel v w -> shows d q c (Turned r :: steps) sel v w
| s_covered : forall c (S : pt -> Prop) p steps sel v w, in_grid (getSize c) p -> phys c p = q -> S p ->
    shows d q c steps sel (colour d sel) w -> shows d q c (Shape S :: steps) sel v w
| s_not_covered : forall c (S : pt -> Prop) p steps sel v w, in_grid (getSize c) p -> phys c p = q -> ~ S p ->
    shows d q c steps sel v w -> shows d q c (Shape S :: steps) sel v w.
