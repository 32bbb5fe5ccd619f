(** Specification vocabulary for moving shapes. *)
From Verif Require Import Base.

Definition shift (p d : Z * Z) : Z * Z := (fst p + fst d, snd p + snd d).
(** the set [S] moved by [d] *)
Definition moved (d : Z * Z) (S : Z * Z -> Prop) (p : Z * Z) : Prop := S (fst p - fst d, snd p - snd d).
