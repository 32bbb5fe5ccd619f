(** The rest of graphics/BaseGeometry.h for [T = int]: division of sizes and the converting constructor
    of rectangles. *)
From Verif Require Import Base M_Geometry.

(** BaseGeometry.h:30-33, [Size::operator/]: division by zero and a quotient outside [int] are undefined *)
Definition idiv (a k : Z) : res Z := if k =? 0 then UB else chk (Z.quot a k).
Definition size_div (s : pt) (k : Z) : res pt := do w <- idiv (fst s) k; do h <- idiv (snd s) k; Ok (w, h).

(** [T(v)] for [T = int] of a value of any integer type: the value modulo 2^32 (implementation-defined
    before C++20, but so on every compiler the library is used with) *)
Definition to_int (v : Z) : Z := (v + 2147483648) mod 4294967296 - 2147483648.
(** BaseGeometry.h:76-78, the converting constructor [Rect<int>(Rect<U>)] *)
Definition rect_convert (r : rect) : rect :=
  mkRect (to_int (fst (tl r)), to_int (snd (tl r))) (to_int (fst (sz r)), to_int (snd (sz r))).
