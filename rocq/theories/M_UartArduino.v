(** Model of arduino/PacketUart.cpp.

    The environment: [ticks n] is call number [n] of millis(), [rx n] call number [n] of read()
    ([None] for -1), [timed n T] call number [n] of the Stream's timedRead() while the stream timeout
    is [T].  [unsigned long] has 32 bits.  [char] is unsigned, as on the ESP32 core (the only one with
    the [flush(bool)] of line 39), so the terminator of readBytesUntil compares as a byte. *)
From Verif Require Import Base.

(** the buffer, the result, the stream timeout afterwards and the numbers of calls made *)
Record ardOutcome := mkArd { amem : list Z; acount : Z; aTimeout : Z; aClocks : nat; aReads : nat; aTimed : nat }.

(** PacketUart.cpp:16-27 *)
Fixpoint receiveLoop (fuel : nat) (ticks : nat -> Z) (rx : nat -> option Z) (bufferSize maxTime : Z)
    (buffer : list Z) (currentPos : Z) (nt nr : nat) : res (list Z * Z * nat * nat) :=
  match fuel with
  | O => Fuel
  | S fuel =>
    if (ticks nt <? maxTime) && (currentPos <? bufferSize) then
      match rx nr with
      | Some b =>
        do buffer <- wr buffer currentPos (u8 b);
        receiveLoop fuel ticks rx bufferSize maxTime buffer (u16 (currentPos + 1)) (S nt) (S nr)
      | None => receiveLoop fuel ticks rx bufferSize maxTime buffer currentPos (S nt) (S nr)
      end
    else Ok (buffer, currentPos, S nt, nr)
  end.
(** PacketUart.cpp:11-29 *)
Definition ardReceive (fuel : nat) (ticks : nat -> Z) (rx : nat -> option Z) (buffer : list Z) (bufferSize timeout : Z)
  : res (list Z * Z * nat * nat) :=
  receiveLoop fuel ticks rx bufferSize (u32 (ticks O + timeout)) buffer 0 1 0.

(** What Send asks of the serial device *)
Inductive serialCall := SetTimeout (t : Z) | Write (bs : list Z) | FlushTx.
(** PacketUart.cpp:31-42; [written] is the answer of write, [oldTimeout] of getTimeout *)
Definition ardSend (oldTimeout written : Z) (buffer : list Z) (bufferSize timeoutMilliseconds : Z) : res (Z * list serialCall) :=
  do data <- rd_slice buffer 0 bufferSize;
  Ok (u16 written,
      (if 0 <? timeoutMilliseconds then [SetTimeout timeoutMilliseconds] else []) ++
      [Write data; FlushTx; SetTimeout oldTimeout]).

(** Arduino core, Stream::readBytesUntil (not in the repository; its documented behaviour): bytes are
    read and stored until [length] are stored, the terminator is read or timedRead fails.  The result
    is the memory, the number stored and the number of the next timedRead. *)
Fixpoint readBytesUntil (fuel : nat) (timed : nat -> Z -> option Z) (T terminator length : Z)
    (buffer : list Z) (off index : Z) (n : nat) : res (list Z * Z * nat) :=
  match fuel with
  | O => Fuel
  | S fuel =>
    if index <? length then
      match timed n T with
      | None => Ok (buffer, index, S n)
      | Some c =>
        if c =? terminator then Ok (buffer, index, S n)
        else
          do buffer <- wr buffer (off + index) c;
          readBytesUntil fuel timed T terminator length buffer off (index + 1) (S n)
      end
    else Ok (buffer, index, n)
  end.
(** PacketUart.cpp:44-56.  [bufferSize - 1] is an [int] converted to size_t (32 bits). *)
Definition ardReceiveUntil (fuel : nat) (timed : nat -> Z -> option Z) (oldTimeout : Z)
    (buffer : list Z) (bufferSize endByte timeoutMilliseconds : Z) : res ardOutcome :=
  let T := if 0 <? timeoutMilliseconds then timeoutMilliseconds else oldTimeout in
  do ' (buffer, n, k) <- readBytesUntil fuel timed T endByte (u32 (bufferSize - 1)) buffer 0 0 0;
  let currentPos := u16 (0 + n) in
  do buffer <- wr buffer currentPos endByte;
  Ok (mkArd buffer (u16 (currentPos + 1)) oldTimeout 0 0 k).
(** PacketUart.cpp:72-82: the search for the start byte; [None] when the time is over, otherwise the
    buffer with the start byte *)
Fixpoint searchLoop (fuel : nat) (ticks : nat -> Z) (rx : nat -> option Z) (startByte timeout maxTime : Z)
    (nt nr : nat) : res (bool * nat * nat) :=
  match fuel with
  | O => Fuel
  | S fuel =>
    let '(go, nt) := (if timeout =? 0 then (true, nt) else (ticks nt <? maxTime, S nt)) in
    if go : bool then
      match rx nr with
      | Some b => if b =? startByte then Ok (true, nt, S nr) else searchLoop fuel ticks rx startByte timeout maxTime nt (S nr)
      | None => searchLoop fuel ticks rx startByte timeout maxTime nt (S nr)
      end
    else Ok (false, nt, nr)
  end.
(** PacketUart.cpp:58-85 *)
Definition ardReceiveBetween (fuel : nat) (ticks : nat -> Z) (rx : nat -> option Z) (timed : nat -> Z -> option Z) (oldTimeout : Z)
    (buffer : list Z) (bufferSize startByte endByte timeoutMilliseconds : Z) : res ardOutcome :=
  let T := if 0 <? timeoutMilliseconds then timeoutMilliseconds else oldTimeout in
  let maxTime := u32 (ticks O + timeoutMilliseconds) in
  do ' (found, nt, nr) <- searchLoop fuel ticks rx startByte timeoutMilliseconds maxTime 1 0;
  if found : bool then
    do buffer <- wr buffer 0 (u8 startByte);
    let currentPos := 1 in
    do ' (buffer, n, k) <- readBytesUntil fuel timed T endByte (u32 (bufferSize - currentPos - 1)) buffer currentPos 0 0;
    let currentPos := u16 (currentPos + n) in
    do buffer <- wr buffer currentPos endByte;
    Ok (mkArd buffer (u16 (currentPos + 1)) oldTimeout nt nr k)
  else Ok (mkArd buffer 0 oldTimeout nt nr 0).
