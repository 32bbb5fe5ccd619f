(** Model of arduino/SpiBus.cpp and arduino/SpiDevice.cpp.

    The caller's buffers are two ranges of one memory, so that they may be the same.  The log records
    what happens on the bus; [Byte b r] is one byte exchanged: [b] sent, [r] received.  The other side
    of the bus is any function [slave] from what happened so far and the byte being sent to its answer.
    The library call SPIClass::transferBytes is taken to exchange [size] bytes in order, sending
    [fill] when it is given no data (simplification: it reads all its input before it stores any
    output). *)
From Verif Require Import Base.

Inductive busEvent := Begin | Byte (sent received : Z) | End.
Definition state : Type := list Z * list busEvent.

(** SPIClass::transfer(uint8_t): one byte each way *)
Definition transferByte (slave : list busEvent -> Z -> Z) (log : list busEvent) (b : Z) : Z * list busEvent :=
  let r := u8 (slave log b) in (r, log ++ [Byte b r]).
(** SPIClass::transferBytes on the bus *)
Fixpoint exchange (slave : list busEvent -> Z -> Z) (log : list busEvent) (data : list Z) : list Z * list busEvent :=
  match data with
  | [] => ([], log)
  | b :: data => let '(r, log) := transferByte slave log b in
                 let '(rs, log) := exchange slave log data in (r :: rs, log)
  end.
Definition transferBytes (slave : list busEvent -> Z -> Z) (fill : Z) (inp out : option Z) (size : Z) (st : state) : res state :=
  let '(mem, log) := st in
  do data <- match inp with Some i => rd_slice mem i size | None => Ok (repeat fill (Z.to_nat size)) end;
  let '(rs, log) := exchange slave log data in
  do mem <- match out with Some o => wr_slice mem o rs | None => Ok mem end;
  Ok (mem, log).

(** SpiBus.cpp:9-19: cases 3, 2, 1, 0, each falling through to the next *)
Fixpoint readCases (slave : list busEvent -> Z -> Z) (k : nat) (out : Z) (st : state) : res state :=
  match k with
  | O => Ok st
  | S k => let '(mem, log) := st in
           let '(r, log) := transferByte slave log 255 in
           do mem <- wr mem out r;
           readCases slave k (out + 1) (mem, log)
  end.
(** SpiBus.cpp:5-30 (the recursive call is always for 1, 2 or 3 bytes) *)
Definition read (slave : list busEvent -> Z -> Z) (fill out size : Z) (st : state) : res state :=
  if size <? 4 then readCases slave (Z.to_nat size) out st
  else
    let dwords := size / 4 in
    do st <- transferBytes slave fill None (Some out) (dwords * 4) st;
    let rest := size mod 4 in
    if rest =? 0 then Ok st else readCases slave (Z.to_nat rest) (out + dwords * 4) st.

(** SpiBus.cpp:36-46 *)
Fixpoint writeCases (slave : list busEvent -> Z -> Z) (k : nat) (inp : Z) (st : state) : res state :=
  match k with
  | O => Ok st
  | S k => let '(mem, log) := st in
           do b <- rd mem inp;
           let '(_, log) := transferByte slave log b in
           writeCases slave k (inp + 1) (mem, log)
  end.
(** SpiBus.cpp:32-58 *)
Definition write (slave : list busEvent -> Z -> Z) (fill inp size : Z) (st : state) : res state :=
  if size <? 4 then writeCases slave (Z.to_nat size) inp st
  else
    let dwords := size / 4 in
    do st <- transferBytes slave fill (Some inp) None (dwords * 4) st;
    let rest := size mod 4 in
    if rest =? 0 then Ok st else writeCases slave (Z.to_nat rest) (inp + dwords * 4) st.

(** SpiBus.cpp:64-74 *)
Fixpoint readAndWriteCases (slave : list busEvent -> Z -> Z) (k : nat) (inp out : Z) (st : state) : res state :=
  match k with
  | O => Ok st
  | S k => let '(mem, log) := st in
           do b <- rd mem inp;
           let '(r, log) := transferByte slave log b in
           do mem <- wr mem out r;
           readAndWriteCases slave k (inp + 1) (out + 1) (mem, log)
  end.
(** SpiBus.cpp:60-86 *)
Definition readAndWrite (slave : list busEvent -> Z -> Z) (fill inp out size : Z) (st : state) : res state :=
  if size <? 4 then readAndWriteCases slave (Z.to_nat size) inp out st
  else
    let dwords := size / 4 in
    do st <- transferBytes slave fill (Some inp) (Some out) (dwords * 4) st;
    let rest := size mod 4 in
    if rest =? 0 then Ok st else readAndWriteCases slave (Z.to_nat rest) (inp + dwords * 4) (out + dwords * 4) st.

(** SpiBus.cpp:89-107; [None] is a null pointer.  The result of the C++ function is always true. *)
Definition spiTransfer (slave : list busEvent -> Z -> Z) (fill : Z) (inp out : option Z) (length : Z) (st : state) : res (bool * state) :=
  let '(mem, log) := st in
  let st := (mem, log ++ [Begin]) in
  do st <- match inp, out with
           | None, Some o => read slave fill o length st
           | None, None => Ok st
           | Some i, None => write slave fill i length st
           | Some i, Some o => readAndWrite slave fill i o length st
           end;
  let '(mem, log) := st in
  Ok (true, (mem, log ++ [End])).
(** SpiDevice.cpp:7-20; the timeouts are ignored *)
Definition sendSync slave fill data length st := spiTransfer slave fill (Some data) None length st.
Definition receiveSync slave fill data length st := spiTransfer slave fill None (Some data) length st.
Definition sendAndReceive slave fill txData rxData size st := spiTransfer slave fill (Some txData) (Some rxData) size st.

(** SpiBus.h:17-20, [sendByte]: SPIClass::write(uint8_t) clocks one byte out and drops the answer; no transaction *)
Definition sendByte (slave : list busEvent -> Z -> Z) (data : Z) (st : state) : state :=
  let '(mem, log) := st in let '(_, log) := transferByte slave log data in (mem, log).
(** SpiBus.h:22-25, [sendBytes]: SPIClass::writeBytes(const uint8_t*, uint32_t); no transaction *)
Definition sendBytes (slave : list busEvent -> Z -> Z) (data length : Z) (st : state) : res state :=
  let '(mem, log) := st in
  do d <- rd_slice mem data length;
  let '(_, log) := exchange slave log d in Ok (mem, log).
(** any use of the bus: the public functions of SpiBus (SpiBus.h:15-25) *)
Inductive busUse := Transfer (inp out : option Z) (length : Z) | SendByte (data : Z) | SendBytes (data length : Z).
Definition useBus (slave : list busEvent -> Z -> Z) (fill : Z) (u : busUse) (st : state) : res state :=
  match u with
  | Transfer inp out length => do ' (_, st) <- spiTransfer slave fill inp out length st; Ok st
  | SendByte data => Ok (sendByte slave data st)
  | SendBytes data length => sendBytes slave data length st
  end.
Fixpoint useBusAll (slave : list busEvent -> Z -> Z) (fill : Z) (us : list busUse) (st : state) : res state :=
  match us with
  | [] => Ok st
  | u :: us => do st <- useBus slave fill u st; useBusAll slave fill us st
  end.
