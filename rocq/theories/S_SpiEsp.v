(** Specification of the ESP32 SPI transfer: the transactions of a transfer of [n] bytes in pieces of
    at most [m], given the original memory.  [found] is the receive length found in the structure. *)
From Verif Require Import Base S_Spi M_SpiEsp.

Definition piece_transaction (mem : list Z) (send recv : option Z) (n m found : Z) (j : nat) : transaction :=
  let size := cut n m (S j) - cut n m j in
  mkTr (match send with Some s => Some (slice mem (s + cut n m j) size) | None => None end)
       (match send with Some _ => 8 * size | None => 0 end)
       (match recv with Some r => Some (r + cut n m j) | None => None end)
       (match recv with Some _ => 8 * size | None => found end).
(** the first [k] transactions and the receive length the driver leaves *)
Fixpoint first_transactions (drv : driver) mem send recv n m (k : nat) : list transaction * Z :=
  match k with
  | O => ([], 0)
  | S k => let '(before, found) := first_transactions drv mem send recv n m k in
           let tr := piece_transaction mem send recv n m found k in
           (before ++ [tr], rxLeft (drv before tr))
  end.
(** the driver's answer to transaction number [j] *)
Definition answer (drv : driver) mem send recv n m (j : nat) : reply :=
  let '(before, found) := first_transactions drv mem send recv n m j in
  drv before (piece_transaction mem send recv n m found j).
(** what the driver stored for the first [k] transactions *)
Definition stored_bytes (drv : driver) mem send recv n m (k : nat) : list Z := concat (map (fun j => received (answer drv mem send recv n m j)) (seq 0 k)).
(** a driver that, asked for [n] bytes, never stores more than that, and exactly that on success *)
Definition stores_properly (drv : driver) : Prop := forall log tr n, rxPtr tr <> None -> 0 <= n -> rxBits tr = 8 * n ->
  zlen (received (drv log tr)) <= n /\ (accepted (drv log tr) = true -> zlen (received (drv log tr)) = n).
(** a driver that leaves the receive length alone *)
Definition leaves_length (drv : driver) : Prop := forall log tr, rxLeft (drv log tr) = rxBits tr.
(** ESP-IDF, full duplex: a receive length of 0 is replaced by the transmit length, and one above the
    transmit length is refused *)
Definition as_full_duplex (drv : driver) : Prop := forall log tr,
  accepted (drv log tr) = (rxBits tr <=? lengthBits tr) /\
  (rxBits tr <= lengthBits tr -> rxLeft (drv log tr) = if rxBits tr =? 0 then lengthBits tr else rxBits tr).
(** the caller's ranges lie in the memory; when both are given they are the same or apart *)
Definition fits (mem : list Z) (send recv : option Z) (n : Z) : Prop :=
  match send with Some s => 0 <= s /\ s + n <= zlen mem | None => True end /\
  match recv with Some r => 0 <= r /\ r + n <= zlen mem | None => True end /\
  match send, recv with Some s, Some r => same_or_apart s r n | _, _ => True end.
(** [k] releases in a row *)
Fixpoint releases (k : nat) (drv : busDriver) (b : bus) (log : list busCall) : list bool * bus * list busCall :=
  match k with
  | O => ([], b, log)
  | S k => let '(r, b, log) := busRelease drv b log in
           let '(rs, b, log) := releases k drv b log in (r :: rs, b, log)
  end.
