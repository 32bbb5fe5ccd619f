(** Specification vocabulary for the graphics properties (independent of the model). *)
From Verif Require Import Base.

(** the values of the C++ type [int] *)
Definition is_int (z : Z) : Prop := INT_MIN <= z <= INT_MAX.

(** a coordinate far from the ends of [int] *)
Definition near (z : Z) : Prop := -268435456 <= z <= 268435456.      (* +- 2^28 *)
Definition near_pt (p : Z * Z) : Prop := near (fst p) /\ near (snd p).

(** the pixels of the rectangle with top-left corner [p] and size [s] *)
Definition in_box (p s q : Z * Z) : Prop :=
  fst p <= fst q < fst p + fst s /\ snd p <= snd q < snd p + snd s.
(** the grid of a canvas of the given size *)
Definition in_grid (s q : Z * Z) : Prop := in_box (0, 0) s q.

(** a quarter turn clockwise of a grid [w x h] onto a grid [h x w]: the top row becomes the right
    column *)
Definition turn (h : Z) (p : Z * Z) : Z * Z := (h - 1 - snd p, fst p).
(** [n] quarter turns of a grid of size [s] *)
Fixpoint turns (n : nat) (s p : Z * Z) : Z * Z :=
  match n with O => p | S n => turns n (snd s, fst s) (turn (snd s) p) end.

(** ** Images: pixels of [d] bits, most significant bit first, row after row of [w] pixels *)
(** bit number [i] of a byte sequence, most significant bit of byte 0 first *)
Definition img_bit (l : list Z) (i : Z) : bool := Z.testbit (nthZ l (i / 8)) (7 - i mod 8).
(** the number written in [n] consecutive bits *)
Fixpoint bits_val (l : list Z) (i : Z) (n : nat) : Z :=
  match n with
  | O => 0
  | S n => 2 * bits_val l i n + (if img_bit l (i + Z.of_nat n) then 1 else 0)
  end.
(** the value of pixel (x,y) *)
Definition pixel (l : list Z) (w d x y : Z) : Z := bits_val l ((y * w + x) * d) (Z.to_nat d).
(** the value colour [c] has in an image of depth [d] *)
Definition colour (d c : Z) : Z := if d =? 1 then (if c =? 0 then 0 else 1) else c mod 2 ^ d.

(** ** Shapes *)
(** the outline [drawRectangle] paints: the two rows and the two columns at the sides of the
    rectangle (for a positive size this is its border) *)
Definition frame (p s q : Z * Z) : Prop :=
  (fst p <= fst q < fst p + fst s /\ (snd q = snd p \/ snd q = snd p + snd s - 1)) \/
  (snd p <= snd q < snd p + snd s /\ (fst q = fst p \/ fst q = fst p + fst s - 1)).
(** the border pixels of a rectangle: those with a 4-neighbour outside *)
Definition border (p s q : Z * Z) : Prop :=
  in_box p s q /\
  ~ (in_box p s (fst q - 1, snd q) /\ in_box p s (fst q + 1, snd q) /\
     in_box p s (fst q, snd q - 1) /\ in_box p s (fst q, snd q + 1)).

(** [l] is a digital straight line between [a] and [b]: with [L] the larger coordinate difference, it
    has [L+1] pixels, starts in one of the two points and ends in the other, pixel number [i] is
    within half a pixel (in both coordinates) of the ideal point number [i] of [L+1] equally spaced
    ones, and neighbouring pixels of the list touch *)
Definition digital_line (a b : Z * Z) (l : list (Z * Z)) : Prop :=
  exists s e, ((s, e) = (a, b) \/ (s, e) = (b, a)) /\
  let L := Z.max (Z.abs (fst b - fst a)) (Z.abs (snd b - snd a)) in
  zlen l = L + 1 /\
  nth_error l 0 = Some s /\ nth_error l (Z.to_nat L) = Some e /\
  (forall i, 0 <= i <= L -> exists p, nth_error l (Z.to_nat i) = Some p /\
     2 * Z.abs (L * (fst p - fst s) - i * (fst e - fst s)) <= L /\
     2 * Z.abs (L * (snd p - snd s) - i * (snd e - snd s)) <= L) /\
  (forall i p q, 0 <= i < L -> nth_error l (Z.to_nat i) = Some p -> nth_error l (Z.to_nat (i + 1)) = Some q ->
     Z.abs (fst q - fst p) <= 1 /\ Z.abs (snd q - snd p) <= 1 /\ p <> q).

(** [k] is [n / d] rounded to the nearest integer, a half rounded down *)
Definition rounded (n d k : Z) : Prop := 0 <= k /\ 2 * n <= d * (2 * k + 1) /\ (0 < k -> d * (2 * k - 1) < 2 * n).
(** the pixels between the columns of [s] and [e] nearest to the segment from [s] rightwards to [e];
    of two equally near ones the one nearer to the row of [s] *)
Definition nearest (s e p : Z * Z) : Prop :=
  fst s <= fst p <= fst e /\
  exists k, rounded ((fst p - fst s) * Z.abs (snd e - snd s)) (fst e - fst s) k /\
    snd p = snd s + Z.sgn (snd e - snd s) * k.
Definition flip (p : Z * Z) : Z * Z := (snd p, fst p).
(** the pixels of the line between [a] and [b]: one in each column from the left to the right end, or, if
    it is higher than wide, one in each row from the top to the bottom end *)
Definition line_pixel (a b p : Z * Z) : Prop :=
  exists s e, ((s, e) = (a, b) \/ (s, e) = (b, a)) /\
  (Z.abs (snd b - snd a) <= Z.abs (fst b - fst a) /\ fst s <= fst e /\ nearest s e p \/
   Z.abs (fst b - fst a) < Z.abs (snd b - snd a) /\ snd s <= snd e /\ nearest (flip s) (flip e) (flip p)).

(** the pixels of the circle of radius [r] around the origin: with [M] the larger of |a|, |b|, those
    with -M <= a^2 + b^2 - r^2 < M (the pixel is, along that axis, the nearest to the ideal circle),
    but not a diagonal pixel with a^2 + b^2 - r^2 = M - 1 *)
Definition ring (r : Z) (q : Z * Z) : Prop :=
  let a := Z.abs (fst q) in let b := Z.abs (snd q) in
  - Z.max a b <= a * a + b * b - r * r < Z.max a b /\
  ~ (a = b /\ a * a + b * b - r * r = Z.max a b - 1).
(** a pixel of the filled circle: between two pixels of the circle in the same row *)
Definition disc (r : Z) (q : Z * Z) : Prop :=
  exists a', Z.abs (fst q) <= a' /\ ring r (a', snd q).
