(** Model of code that uses several devices on one SPI bus: each conversation is a block with a
    ChipSelector (GpioDigitalPin.h:33-49) for the device's select pin and SpiDevice calls in it
    (README.md:7).  The calls are those of M_SpiArduino and M_SpiEsp.

    The wire log records the levels of the select pins and the bytes clocked out.  What the master
    reads is any function [slave] of the wire log and the byte being clocked out. *)
From Verif Require Import Base M_SpiArduino M_SpiEsp.

Inductive wire := Pin (p : Z) (high : bool) | Clocked (sent : Z).
(** SpiDevice.h:15-17.  Simplification: every call has its own buffer, and an exchange is done in place. *)
Inductive request := Send (data : list Z) | Receive (n : nat) | Exchange (data : list Z).

(** ** Arduino *)
(** the part of the bus log (M_SpiArduino) that the devices see *)
Definition wires (log : list busEvent) : list wire :=
  flat_map (fun e => match e with Byte b _ => [Clocked b] | _ => [] end) log.
Definition onBus (slave : list wire -> Z -> Z) (w : list wire) : list busEvent -> Z -> Z :=
  fun log b => slave (w ++ wires log) b.
(** arduino/SpiDevice.cpp:7-20: result of the call, contents of the receive buffer, wire log *)
Definition ardCall (slave : list wire -> Z -> Z) (fill : Z) (r : request) (w : list wire) : res (bool * list Z * list wire) :=
  match r with
  | Send d => do ' (ok, (_, log)) <- sendSync (onBus slave w) fill 0 (zlen d) (d, []); Ok (ok, [], w ++ wires log)
  | Receive n => do ' (ok, (mem, log)) <- receiveSync (onBus slave w) fill 0 (Z.of_nat n) (repeat 0 n, []); Ok (ok, mem, w ++ wires log)
  | Exchange d => do ' (ok, (mem, log)) <- sendAndReceive (onBus slave w) fill 0 0 (zlen d) (d, []); Ok (ok, mem, w ++ wires log)
  end.

(** ** ESP32 *)
(** the peripheral clocks bytes out and reads the answers *)
Fixpoint clock (slave : list wire -> Z -> Z) (w : list wire) (data : list Z) : list Z * list wire :=
  match data with
  | [] => ([], w)
  | b :: data => let '(rs, w') := clock slave (w ++ [Clocked b]) data in (u8 (slave w b) :: rs, w')
  end.
(** spi_device_polling_transmit (ESP-IDF), for whole bytes: a full duplex device reads while it sends
    and does not accept a receive length above the length; a half duplex one sends first and then
    reads, with [idle] on the data line.  Bytes read and wire log.  In full duplex a receive length of
    0 in the caller's structure is replaced by the length, also when nothing is to be received. *)
Definition accepts (half : bool) (tr : transaction) : bool := half || (rxBits tr <=? lengthBits tr).
Definition perform (slave : list wire -> Z -> Z) (half : bool) (idle : Z) (w : list wire) (tr : transaction) : list Z * list wire :=
  let tx := match txData tr with Some d => d | None => [] end in
  if half then
    let '(_, w) := clock slave w tx in clock slave w (repeat idle (Z.to_nat (rxBits tr / 8)))
  else clock slave w tx.
(** the wire log after some transactions, and the driver of M_SpiEsp this gives *)
Definition espWires (slave : list wire -> Z -> Z) (half : bool) (idle : Z) (w : list wire) (trs : list transaction) : list wire :=
  fold_left (fun w tr => if accepts half tr then snd (perform slave half idle w tr) else w) trs w.
Definition espDriver (slave : list wire -> Z -> Z) (half : bool) (idle : Z) (w : list wire) : driver :=
  fun trs tr =>
    if accepts half tr then
      mkReply true (match rxPtr tr with Some _ => fst (perform slave half idle (espWires slave half idle w trs) tr) | None => [] end)
        (if negb half && (rxBits tr =? 0) then lengthBits tr else rxBits tr)
    else mkReply false [] (rxBits tr).
(** esp32-esp-idf/SpiDevice.cpp:7-20; [m] is the largest transfer (SpiBus.cpp:50) *)
Definition espCall (slave : list wire -> Z -> Z) (half : bool) (idle m : Z) (r : request) (w : list wire) : res (bool * list Z * list wire) :=
  let drv := espDriver slave half idle w in
  match r with
  | Send d => do ' (ok, _, trs) <- espTransfer (S (length d)) drv m d (Some 0) None (zlen d); Ok (ok, [], espWires slave half idle w trs)
  | Receive n => do ' (ok, mem, trs) <- espTransfer (S n) drv m (repeat 0 n) None (Some 0) (Z.of_nat n); Ok (ok, mem, espWires slave half idle w trs)
  | Exchange d => do ' (ok, mem, trs) <- espTransfer (S (length d)) drv m d (Some 0) (Some 0) (zlen d); Ok (ok, mem, espWires slave half idle w trs)
  end.

(** ** Conversations *)
Fixpoint calls (call : request -> list wire -> res (bool * list Z * list wire)) (rs : list request) (w : list wire)
    : res (list (bool * list Z) * list wire) :=
  match rs with
  | [] => Ok ([], w)
  | r :: rs => do ' (ok, mem, w) <- call r w;
               do ' (l, w) <- calls call rs w;
               Ok ((ok, mem) :: l, w)
  end.
(** GpioDigitalPin.h:38-46: the select pin is low from the beginning to the end of the block *)
Definition talk call (p : Z) (rs : list request) (w : list wire) : res (list (bool * list Z) * list wire) :=
  do ' (l, w) <- calls call rs (w ++ [Pin p false]);
  Ok (l, w ++ [Pin p true]).
Fixpoint talks call (ss : list (Z * list request)) (w : list wire) : res (list (list (bool * list Z)) * list wire) :=
  match ss with
  | [] => Ok ([], w)
  | (p, rs) :: ss => do ' (l, w) <- talk call p rs w;
                     do ' (ls, w) <- talks call ss w;
                     Ok (l :: ls, w)
  end.
