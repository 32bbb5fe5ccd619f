(** The coordinates for which the drawing calls do not leave the range of [int]. *)
From Verif Require Import Base S_Graphics M_Geometry.

(** a point of two [int]s *)
Definition is_point (p : Z * Z) : Prop := is_int (fst p) /\ is_int (snd p).

(** the line from [s] rightwards to [e] leaves room for the column after its last pixel and, if it is
    steeper than one half, for one more step up or down after its end *)
Definition slope_room (s e : Z * Z) : Prop :=
  fst e < INT_MAX /\
  (fst e - fst s < 2 * Z.abs (snd e - snd s) -> is_int (snd e + Z.sgn (snd e - snd s))).
(** the same for any line: its extents are [int]s (the number of pixels of a straight line too), and
    there is room after the right end, or after the lower end of a line that is higher than wide *)
Definition line_room (a b : Z * Z) : Prop :=
  let dx := Z.abs (fst b - fst a) in
  let dy := Z.abs (snd b - snd a) in
  dx <= INT_MAX /\ dy <= INT_MAX /\
  (dx = 0 \/ dy = 0 -> dx < INT_MAX /\ dy < INT_MAX) /\
  forall s e, (s, e) = (a, b) \/ (s, e) = (b, a) ->
    (dy <= dx -> dx <> 0 -> fst s <= fst e -> slope_room s e) /\
    (dx < dy \/ dx = 0 -> snd s <= snd e -> slope_room (flip s) (flip e)).

(** a rectangle of [int]s *)
Definition is_rect (r : rect) : Prop := is_point (tl r) /\ is_point (sz r).
(** the canvas has the size of a frame buffer: two [int]s *)
Definition sized (c : canvas) : Prop := 0 <= cw c <= INT_MAX /\ 0 <= ch c <= INT_MAX.
(** a rectangle in the coordinates of the frame buffer *)
Definition turned (c : canvas) (r : rect) : rect :=
  match rot c with
  | R0 => r
  | R90 => mkRect (cw c - snd (tl r) - snd (sz r), fst (tl r)) (snd (sz r), fst (sz r))
  | R180 => mkRect (cw c - fst (tl r) - fst (sz r), ch c - snd (tl r) - snd (sz r)) (sz r)
  | R270 => mkRect (snd (tl r), ch c - fst (tl r) - fst (sz r)) (snd (sz r), fst (sz r))
  end.
(** the edge of length [n] from [a]: its last coordinate and the one after it are [int]s *)
Definition edge_room (a n : Z) : Prop := is_int (a + n - 1) /\ is_int (a + n).
(** the outline of a rectangle of the frame buffer *)
Definition outline_room (r : rect) : Prop :=
  edge_room (fst (tl r)) (fst (sz r)) /\ edge_room (snd (tl r)) (snd (sz r)).
(** the last pixel of a rectangle, computed from the size reduced by one *)
Definition corner_room (r : rect) : Prop :=
  is_int (fst (sz r) - 1) /\ is_int (snd (sz r) - 1) /\
  is_int (fst (tl r) + fst (sz r) - 1) /\ is_int (snd (tl r) + snd (sz r) - 1).
(** turning a rectangle: its corner and the image of it *)
Definition turn_room (c : canvas) (r : rect) : Prop :=
  is_point (tl (turned c r)) /\
  match rot c with
  | R0 => True
  | R90 => edge_room (snd (tl r)) (snd (sz r))
  | R180 => corner_room r
  | R270 => edge_room (fst (tl r)) (fst (sz r))
  end.

(** the error term of a circle of radius [r] stays in the range of [int]: this is the value it has when a
    row is left, for every place at which the next row may be chosen *)
Definition error_fits (r : Z) : Prop :=
  forall v y, 0 <= v -> 0 <= y -> v * v + (y + 1) * (y + 1) - r * r <= y -> v * v + (y + 2) * (y + 2) - r * r <= INT_MAX.
(** a circle around the point [m] of the frame buffer: its extreme points, and for a filled one the
    column after them, and the error term; a radius below 1 draws up to two points of one row *)
Definition circle_room (m : Z * Z) (r : Z) (filled : bool) : Prop :=
  if r <=? 0 then
    -536870910 <= r /\ is_int (fst m + r) /\ is_int (fst m - r) /\ (filled = true -> r = 0 -> fst m < INT_MAX)
  else
    is_int (fst m - r) /\ fst m + r + (if filled then 1 else 0) <= INT_MAX /\ is_int (snd m - r) /\ is_int (snd m + r) /\
    error_fits r.

(** the operation, given enough steps, returns *)
Definition returns {A} (op : nat -> res A) : Prop := exists fuel a, op fuel = Ok a.
