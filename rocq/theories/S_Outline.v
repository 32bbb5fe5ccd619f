(** Specification vocabulary for the shape of circles. *)
From Verif Require Import Base S_Graphics.

(** the pixels of the digital disc of radius [r] around the origin: those less than half a pixel (along
    the longer axis) outside the ideal circle; a diagonal pixel with a^2 + b^2 - r^2 = |a| - 1 is left
    out *)
Definition digital_disc (r : Z) (q : Z * Z) : Prop :=
  let a := Z.abs (fst q) in let b := Z.abs (snd q) in
  a * a + b * b - r * r < Z.max a b /\ ~ (a = b /\ a <> 0 /\ a * a + b * b - r * r = a - 1).
(** pixels with a common side; pixels with a common side or corner *)
Definition beside (p q : Z * Z) : Prop := Z.abs (fst p - fst q) + Z.abs (snd p - snd q) = 1.
Definition touching (p q : Z * Z) : Prop := Z.abs (fst p - fst q) <= 1 /\ Z.abs (snd p - snd q) <= 1.
(** the pixels of a set that have a neighbour outside it *)
Definition edge (S : Z * Z -> Prop) (q : Z * Z) : Prop := S q /\ exists q', beside q q' /\ ~ S q'.
(** one can walk inside the set from [p] to [q] *)
Inductive walk (S : Z * Z -> Prop) : Z * Z -> Z * Z -> Prop :=
| walk_stay : forall p, S p -> walk S p p
| walk_step : forall p q q', walk S p q -> touching q q' -> S q' -> walk S p q'.
(** [p] moved to the centre [c] *)
Definition around (c p : Z * Z) : Z * Z := (fst p - fst c, snd p - snd c).
