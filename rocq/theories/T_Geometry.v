(** tests/BaseGeometryTest.cpp evaluated on the model (a check of the model, not a proof). *)
From Verif Require Import Base M_Geometry M_GeometryMore.

(** BaseGeometryTest.cpp:9-39 *)
Example SizeAddition : size_add (2, 3) (4, 5) = Ok (6, 8).
Proof. reflexivity. Qed.
Example SizeSubtraction : size_sub (10, 8) (5, 3) = Ok (5, 5).
Proof. reflexivity. Qed.
Example SizeMultiplication : size_mul (3, 4) 2 = Ok (6, 8).
Proof. reflexivity. Qed.
Example SizeDivision : size_div (12, 10) 2 = Ok (6, 5).
Proof. reflexivity. Qed.
(** BaseGeometryTest.cpp:41-63 *)
Example PointAddition : pt_add (2, 3) (4, 5) = Ok (6, 8).
Proof. reflexivity. Qed.
Example PointCompoundAddition : pt_add_assign (2, 3) (4, 5) = Ok (6, 8).
Proof. reflexivity. Qed.
Example PointEquality : pt_eq (2, 3) (2, 3) = true /\ pt_ne (2, 3) (4, 5) = true.
Proof. split; reflexivity. Qed.
(** BaseGeometryTest.cpp:66-105 *)
Example RectAddition : rect_add (mkRect (1, 2) (3, 4)) (5, 6) = Ok (mkRect (6, 8) (3, 4)).
Proof. reflexivity. Qed.
Example RectCompoundAddition : rect_add_assign (mkRect (1, 2) (3, 4)) (5, 6) = Ok (mkRect (6, 8) (3, 4)).
Proof. reflexivity. Qed.
Example RectBottomLeft : bottomLeft (mkRect (1, 2) (3, 4)) = Ok (1, 5).
Proof. reflexivity. Qed.
Example RectTopRight : topRight (mkRect (1, 2) (3, 4)) = Ok (3, 2).
Proof. reflexivity. Qed.
Example RectBottomRight : bottomRight (mkRect (1, 2) (3, 4)) = Ok (3, 5).
Proof. reflexivity. Qed.
(** BaseGeometryTest.cpp:107-113 *)
Example Matrix2x2Multiplication : mat_mul (mkMat 2 1 (-3) 0) (2, 3) = Ok (7, -6).
Proof. reflexivity. Qed.
