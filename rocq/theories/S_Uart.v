(** Specification vocabulary for the packet UART. *)
From Verif Require Import Base.

(** the bytes delivered by the first [n] read requests, in order *)
Fixpoint received (rx : nat -> option Z) (n : nat) : list Z :=
  match n with
  | O => []
  | S n => received rx n ++ match rx n with Some b => [b] | None => [] end
  end.
(** [x] does not occur in [l] except possibly as its last element *)
Definition only_last (x : Z) (l : list Z) : Prop := forall a b, l = a ++ x :: b -> b = [].
(** [l] ends with [x] *)
Definition ends_with (x : Z) (l : list Z) : Prop := exists a, l = a ++ [x].
(** memory [mem] with [data] written at its start *)
Definition overwritten (mem data : list Z) : list Z := data ++ skipn (length data) mem.
(** a driver delivers bytes *)
Definition byte_source (rx : nat -> option Z) : Prop := forall n b, rx n = Some b -> is_byte b.
(** readings of a 32-bit millisecond counter *)
Definition clock (ticks : nat -> Z) : Prop := forall n, 0 <= ticks n < 4294967296.
(** the deadline the code computes from the first reading *)
Definition deadline (ticks : nat -> Z) (timeout : Z) : Z := (ticks O + timeout) mod 4294967296.
(** the last of [n] readings *)
Definition last_reading (ticks : nat -> Z) (n : nat) : Z := ticks (pred n).
(** the first timed reads, made while the stream timeout is [T], deliver [got], none of it the
    terminator [e] *)
Definition delivers (timed : nat -> Z -> option Z) (T e : Z) (got : list Z) : Prop :=
  (forall i b, nth_error got i = Some b -> timed i T = Some b) /\ ~ In e got.
(** the answers from request number [k] on *)
Definition from (rx : nat -> option Z) (k : nat) : nat -> option Z := fun i => rx (k + i)%nat.
(** the first [k] answers are bytes other than [s] *)
Definition only_noise (rx : nat -> option Z) (s : Z) (k : nat) : Prop := forall i, (i < k)%nat -> exists b, rx i = Some b /\ b <> s.
