(** Specification vocabulary for packets received one after the other from one line. *)
From Verif Require Import Base S_Uart M_UartEsp M_UartArduino.

(** a packet: the start byte, a body without the end byte, the end byte *)
Definition packet (s e : Z) (body : list Z) : list Z := s :: body ++ [e].
Definition packet_body (e : Z) (body : list Z) : Prop := ~ In e body.
(** the bytes among the answers to read requests *)
Definition bytes_of (l : list (option Z)) : list Z := flat_map (fun a => match a with Some b => [b] | None => [] end) l.
(** the requests of a line are answered by [l] first *)
Definition starts {A} (rx : nat -> A) (l : list A) : Prop := forall i a, nth_error l i = Some a -> rx i = a.

(** ** ESP32 *)
(** What one call meets: noise without the start byte, each byte there when asked for; the start byte;
    then the rest of the packet, where a request may also go unanswered for some time. *)
Record arrival := mkArrival { noise : list Z; abody : list Z; others : list (option Z) }.
Definition arrives (s e : Z) (a : arrival) : Prop :=
  ~ In s (noise a) /\ packet_body e (abody a) /\ bytes_of (others a) = abody a.
Definition answers (s e : Z) (a : arrival) : list (option Z) := map Some (noise a) ++ Some s :: others a ++ [Some e].
(** the clock is never read after the deadline while the packet arrives *)
Definition on_time (t : Z) (a : arrival) (ticks : nat -> Z) : Prop :=
  ticks O + t < 4294967296 /\ forall i, (i <= S (length (others a)))%nat -> 0 <= ticks i <= ticks O + t.
(** calls of ReceiveBetween in a row, each with its own clock readings, on one line and one buffer: the
    bytes each returns *)
Fixpoint esp_session (fuel : nat) (clocks : list (nat -> Z)) (rx : nat -> option Z) (mem : list Z) (size s e t : Z) : res (list (list Z)) :=
  match clocks with
  | [] => Ok []
  | ticks :: clocks =>
      do o <- espReceiveBetween fuel ticks rx mem size s e t;
      do l <- esp_session fuel clocks (from rx (reads o)) (omem o) size s e t;
      Ok (firstn (Z.to_nat (ocount o)) (omem o) :: l)
  end.

(** ** Arduino *)
(** A line of bytes, each there when asked for.  A call starts at the bytes [line]; read() takes them
    one by one, timedRead() goes on where read() stopped. *)
Definition next_bytes (line : list Z) : nat -> option Z := fun i => nth_error line i.
Inductive ard_session (fuel : nat) (old size s e t : Z) : list (nat -> Z) -> list Z -> list Z -> list (list Z) -> Prop :=
| ard_done : forall line mem, ard_session fuel old size s e t [] line mem []
| ard_call : forall ticks clocks line mem timed o l,
    ardReceiveBetween fuel ticks (next_bytes line) timed old mem size s e t = Ok o ->
    (forall i T, timed i T = nth_error line (aReads o + i)) ->
    ard_session fuel old size s e t clocks (skipn (aReads o + aTimed o) line) (amem o) l ->
    ard_session fuel old size s e t (ticks :: clocks) line mem (firstn (Z.to_nat (acount o)) (amem o) :: l).
(** the clock is never read at or after the deadline while the start byte is looked for *)
Definition in_time (t : Z) (n : nat) (ticks : nat -> Z) : Prop :=
  t <> 0 -> forall i, (i <= n)%nat -> ticks (S i) < deadline ticks t.

(** ** The sender *)
(** the bytes a list of calls puts on the line *)
Definition on_line (calls : list serialCall) : list Z := flat_map (fun c => match c with Write bs => bs | _ => [] end) calls.
(** a line with packets, each after some noise without the start byte *)
Definition piece : Type := (list Z * list Z)%type.
Definition clean (s e : Z) (p : piece) : Prop := ~ In s (fst p) /\ packet_body e (snd p).
Definition line_of (s e : Z) (ps : list piece) : list Z := flat_map (fun p => fst p ++ packet s e (snd p)) ps.
