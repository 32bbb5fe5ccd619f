(** Model of graphics/BaseGeometry.h for [T = int] (the only instantiation [Canvas] uses).
    Points, sizes are pairs; every [int] operation is range-checked ([chk]: signed overflow is UB).
    [Rect]'s converting constructor and [Size::operator/] are in M_GeometryMore.  Not modelled: the other
    instantiations. *)
From Verif Require Import Base.

Definition pt : Type := Z * Z.

(** BaseGeometry.h:15-18, [Size::operator+] *)
Definition size_add (s t : pt) : res pt :=
  do w <- chk (fst s + fst t); do h <- chk (snd s + snd t); Ok (w, h).
(** BaseGeometry.h:20-23, [Size::operator-] *)
Definition size_sub (s t : pt) : res pt :=
  do w <- chk (fst s - fst t); do h <- chk (snd s - snd t); Ok (w, h).
(** BaseGeometry.h:25-28, [Size::operator*] *)
Definition size_mul (s : pt) (k : Z) : res pt :=
  do w <- chk (fst s * k); do h <- chk (snd s * k); Ok (w, h).
(** BaseGeometry.h:42-45, [Point::operator+] *)
Definition pt_add (p s : pt) : res pt :=
  do x <- chk (fst p + fst s); do y <- chk (snd p + snd s); Ok (x, y).
(** BaseGeometry.h:47-52, [Point::operator+=]; the new value of [*this] *)
Definition pt_add_assign (p s : pt) : res pt :=
  do x <- chk (fst p + fst s);
  let p1 := (x, snd p) in
  do y <- chk (snd p1 + snd s); Ok (fst p1, y).
(** BaseGeometry.h:54-57 and 59-62 *)
Definition pt_eq (p q : pt) : bool := (fst p =? fst q) && (snd p =? snd q).
Definition pt_ne (p q : pt) : bool := negb (fst p =? fst q) || negb (snd p =? snd q).

(** BaseGeometry.h:65-69, [Rect] *)
Record rect := mkRect { tl : pt; sz : pt }.
(** BaseGeometry.h:80-83 and 85-89 *)
Definition rect_add (r : rect) (s : pt) : res rect := do p <- pt_add (tl r) s; Ok (mkRect p (sz r)).
Definition rect_add_assign (r : rect) (s : pt) : res rect :=
  do p <- pt_add_assign (tl r) s; Ok (mkRect p (sz r)).
(** BaseGeometry.h:91-94 *)
Definition bottomLeft (r : rect) : res pt :=
  do a <- chk (snd (tl r) + snd (sz r)); do y <- chk (a - 1); Ok (fst (tl r), y).
(** BaseGeometry.h:96-99 *)
Definition topRight (r : rect) : res pt :=
  do a <- chk (fst (tl r) + fst (sz r)); do x <- chk (a - 1); Ok (x, snd (tl r)).
(** BaseGeometry.h:101-104 *)
Definition bottomRight (r : rect) : res pt :=
  do s <- size_sub (sz r) (1, 1); pt_add (tl r) s.

(** BaseGeometry.h:107-120, [Matrix2x2] and its product with a point *)
Record matrix := mkMat { m0 : Z; m1 : Z; m2 : Z; m3 : Z }.
Definition mat_mul (m : matrix) (v : pt) : res pt :=
  do a <- chk (m0 m * fst v); do b <- chk (m1 m * snd v); do x <- chk (a + b);
  do c <- chk (m2 m * fst v); do d <- chk (m3 m * snd v); do y <- chk (c + d);
  Ok (x, y).

(** ** Rotation: the part of Canvas that maps logical to frame-buffer coordinates *)
(** Canvas.h:15, [Canvas::Rotation] *)
Inductive rotation := R0 | R90 | R180 | R270.

(** Canvas.h:22-27 and 92-94: the size of the frame buffer and the rotation *)
Record canvas := mkCanvas { cw : Z; ch : Z; rot : rotation }.

(** Canvas.h:39-50, [getSize] *)
Definition getSize (c : canvas) : pt :=
  match rot c with R90 | R270 => (ch c, cw c) | _ => (cw c, ch c) end.
(** Canvas.h:52-53 *)
Definition getRotation (c : canvas) : rotation := rot c.
Definition setRotation (c : canvas) (r : rotation) : canvas := mkCanvas (cw c) (ch c) r.

(** Canvas.cpp:160-174, [transformCoords(Point)] *)
Definition transformPoint (c : canvas) (p : pt) : res pt :=
  match rot c with
  | R90 => do a <- chk (cw c - 1); do x <- chk (a - snd p); Ok (x, fst p)
  | R180 => do a <- chk (cw c - 1); do x <- chk (a - fst p);
            do b <- chk (ch c - 1); do y <- chk (b - snd p); Ok (x, y)
  | R270 => do b <- chk (ch c - 1); do y <- chk (b - fst p); Ok (snd p, y)
  | R0 => Ok p
  end.

(** Canvas.cpp:176-189, [transformCoords(Rect)] *)
Definition transformRect (c : canvas) (r : rect) : res rect :=
  match rot c with
  | R90 => do q <- bottomLeft r; do p <- transformPoint c q; Ok (mkRect p (snd (sz r), fst (sz r)))
  | R180 => do q <- bottomRight r; do p <- transformPoint c q; Ok (mkRect p (sz r))
  | R270 => do q <- topRight r; do p <- transformPoint c q; Ok (mkRect p (snd (sz r), fst (sz r)))
  | R0 => Ok r
  end.

(** Canvas.cpp:191-204, [getTransformMatrix] *)
Definition getTransformMatrix (c : canvas) : matrix :=
  match rot c with
  | R90 => mkMat 0 (-1) 1 0
  | R180 => mkMat (-1) 0 0 (-1)
  | R270 => mkMat 0 1 (-1) 0
  | R0 => mkMat 1 0 0 1
  end.

(** Canvas.cpp:206-219, [getShifts] *)
Definition getShifts (c : canvas) : res pt :=
  match rot c with
  | R90 => do a <- chk (cw c - 1); Ok (a, 0)
  | R180 => do a <- chk (cw c - 1); do b <- chk (ch c - 1); Ok (a, b)
  | R270 => do b <- chk (ch c - 1); Ok (0, b)
  | R0 => Ok (0, 0)
  end.
