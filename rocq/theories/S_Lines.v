(** Specification vocabulary for lines received one after the other with ReceiveUntil. *)
From Verif Require Import Base S_Uart M_UartEsp M_UartArduino.

(** ESP32: calls of ReceiveUntil in a row, each with its own clock readings, on one line and one buffer:
    the bytes each returns, and how many read requests were made in all *)
Fixpoint esp_lines (fuel : nat) (clocks : list (nat -> Z)) (rx : nat -> option Z) (mem : list Z) (size e t : Z) : res (list (list Z) * nat) :=
  match clocks with
  | [] => Ok ([], O)
  | ticks :: clocks =>
      do o <- espReceiveUntil fuel ticks rx mem size e t;
      do ' (l, n) <- esp_lines fuel clocks (from rx (reads o)) (omem o) size e t;
      Ok (firstn (Z.to_nat (ocount o)) (omem o) :: l, (reads o + n)%nat)
  end.
(** Arduino: the same for a number of calls, with the number of timed reads *)
Fixpoint ard_lines (calls fuel : nat) (timed : nat -> Z -> option Z) (old : Z) (mem : list Z) (size e t : Z) : res (list (list Z) * nat) :=
  match calls with
  | O => Ok ([], O)
  | S calls =>
      do o <- ardReceiveUntil fuel timed old mem size e t;
      do ' (l, n) <- ard_lines calls fuel (fun i => timed (aTimed o + i)%nat) old (amem o) size e t;
      Ok (firstn (Z.to_nat (acount o)) (amem o) :: l, (aTimed o + n)%nat)
  end.

(** the lines of a stream: each text and the end byte *)
Definition stream (e : Z) (texts : list (list Z)) : list Z := concat (map (fun x => x ++ [e]) texts).
(** What one Arduino call takes from the line to return [got] and the end byte: [got] alone when it fills
    the buffer, else also the end byte or a read that failed *)
Definition takes (size e : Z) (got : list Z) (answers : list (option Z)) : Prop :=
  ~ In e got /\
  ((zlen got + 1 = size /\ answers = map Some got) \/
   (zlen got + 1 < size /\ (answers = map Some got ++ [Some e] \/ answers = map Some got ++ [None]))).
