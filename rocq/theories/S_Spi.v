(** Specification vocabulary for the SPI properties. *)
From Verif Require Import Base.

(** the bytes [received] are the answers of the other side to the bytes [sent], one by one, when the
    exchange starts after [past]; [pair] builds the event of one exchanged byte *)
Fixpoint answers {E : Type} (pair : Z -> Z -> E) (slave : list E -> Z -> Z) (past : list E) (sent received : list Z) : Prop :=
  match sent, received with
  | [], [] => True
  | b :: sent, r :: received => r = slave past b mod 256 /\ answers pair slave (past ++ [pair b r]) sent received
  | _, _ => False
  end.
(** the events of an exchange *)
Definition events {E : Type} (pair : Z -> Z -> E) (sent received : list Z) : list E :=
  map (fun p => pair (fst p) (snd p)) (combine sent received).
(** two ranges of [n] bytes are the same or do not touch *)
Definition same_or_apart (a b n : Z) : Prop := a = b \/ a + n <= b \/ b + n <= a.
(** where piece number [j] of [n] bytes cut into pieces of [m] begins (and the one before ends) *)
Definition cut (n m : Z) (j : nat) : Z := Z.min n (m * Z.of_nat j).
(** the number of pieces: [n] divided by [m], rounded up *)
Definition count (n m : Z) : nat := Z.to_nat ((n + m - 1) / m).
