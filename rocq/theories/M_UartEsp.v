(** Model of esp32-esp-idf/PacketUart.cpp and the two transfer functions of SimpleUartDevice.cpp.

    The environment is two sequences of answers: [ticks n] is the result of call number [n] of
    getMillisecondTicks, [rx n] the answer to read request number [n] for one byte ([Some b]: one byte
    [b] was stored and 1 returned; [None]: nothing was stored and something else returned).  Since the
    sequences are arbitrary they cover every clock and every driver, also one whose answers depend on
    the requested timeouts. *)
From Verif Require Import Base.

(** SimpleUartDevice.cpp:73-77: the delay handed to the driver; [tick] is portTICK_PERIOD_MS *)
Definition delayTicks (tick timeoutMilliseconds : Z) : Z := timeoutMilliseconds / tick.
(** SimpleUartDevice.cpp:63-71: result and whether the end of the transmission is waited for;
    [r] is the answer of uart_write_bytes *)
Definition sendBlocking (r : Z) : Z * bool := (r, 0 <? r).
(** PacketUart.cpp:10-13; [r] is the answer of uart_read_bytes *)
Definition espReceive (r : Z) : Z := u16 r.
(** PacketUart.cpp:15-18 *)
Definition espSend (r : Z) : Z := u16 (fst (sendBlocking r)).

(** What a call leaves behind: the buffer memory, the result, and how many clock readings and read
    requests were made; [waits] are the timeouts (ms) of the read requests. *)
Record outcome := mkOut { omem : list Z; ocount : Z; clocks : nat; reads : nat; waits : list Z }.

(** PacketUart.cpp:25-35, the loop of [ReceiveUntil] *)
Fixpoint untilLoop (fuel : nat) (ticks : nat -> Z) (rx : nat -> option Z) (bufferSize endByte timeout maxTime : Z)
    (buffer : list Z) (startTime currentPos : Z) (nt nr : nat) (ws : list Z) : res outcome :=
  match fuel with
  | O => Fuel
  | S fuel =>
    if currentPos <? bufferSize then
      let '(go, startTime, nt) :=
        (if timeout =? 0 then (true, startTime, nt) else (ticks nt <? maxTime, ticks nt, S nt)) in
      if go : bool then
        let ws := ws ++ [u32 (maxTime - startTime)] in
        match rx nr with
        | Some b =>
          do buffer <- wr buffer currentPos b;
          do c <- rd buffer currentPos;
          let currentPos := u16 (currentPos + 1) in
          if c =? endByte then Ok (mkOut buffer currentPos nt (S nr) ws)
          else untilLoop fuel ticks rx bufferSize endByte timeout maxTime buffer startTime currentPos nt (S nr) ws
        | None => untilLoop fuel ticks rx bufferSize endByte timeout maxTime buffer startTime currentPos nt (S nr) ws
        end
      else Ok (mkOut buffer currentPos nt nr ws)
    else Ok (mkOut buffer currentPos nt nr ws)
  end.
(** PacketUart.cpp:20-38.  [buffer] is the caller's memory from the pointer on. *)
Definition espReceiveUntil (fuel : nat) (ticks : nat -> Z) (rx : nat -> option Z)
    (buffer : list Z) (bufferSize endByte timeoutMilliseconds : Z) : res outcome :=
  let startTime := ticks O in
  let maxTime := u32 (startTime + timeoutMilliseconds) in
  untilLoop fuel ticks rx bufferSize endByte timeoutMilliseconds maxTime buffer startTime 0 1 0 [].

(** PacketUart.cpp:51-62, the search for the start byte.  [startTime] is not read again, so the
    condition does not change.  The Boolean tells whether a start byte was found (or the loop was
    skipped). *)
Fixpoint findLoop (fuel : nat) (rx : nat -> option Z) (startByte startTime maxTime : Z)
    (buffer : list Z) (nr : nat) (ws : list Z) : res (bool * list Z * nat * list Z) :=
  match fuel with
  | O => Fuel
  | S fuel =>
    if startTime <=? maxTime then
      let ws := ws ++ [u32 (maxTime - startTime)] in
      match rx nr with
      | Some b =>
        do buffer <- wr buffer 0 b;
        do c <- rd buffer 0;
        if c =? startByte then Ok (true, buffer, S nr, ws)
        else findLoop fuel rx startByte startTime maxTime buffer (S nr) ws
      | None => Ok (false, buffer, S nr, ws)
      end
    else Ok (true, buffer, nr, ws)
  end.
(** PacketUart.cpp:64-73, the rest of the packet *)
Fixpoint restLoop (fuel : nat) (ticks : nat -> Z) (rx : nat -> option Z) (bufferSize endByte maxTime : Z)
    (buffer : list Z) (currentPos : Z) (nt nr : nat) (ws : list Z) : res outcome :=
  match fuel with
  | O => Fuel
  | S fuel =>
    let startTime := ticks nt in
    let nt := S nt in
    if startTime <=? maxTime then
      if currentPos =? bufferSize then Ok (mkOut buffer currentPos nt nr ws)
      else
        let ws := ws ++ [u32 (maxTime - startTime)] in
        match rx nr with
        | Some b =>
          do buffer <- wr buffer currentPos b;
          do c <- rd buffer currentPos;
          let currentPos := u16 (currentPos + 1) in
          if c =? endByte then Ok (mkOut buffer currentPos nt (S nr) ws)
          else restLoop fuel ticks rx bufferSize endByte maxTime buffer currentPos nt (S nr) ws
        | None => restLoop fuel ticks rx bufferSize endByte maxTime buffer currentPos nt (S nr) ws
        end
    else Ok (mkOut buffer currentPos nt nr ws)
  end.
(** PacketUart.cpp:40-76 *)
Definition espReceiveBetween (fuel : nat) (ticks : nat -> Z) (rx : nat -> option Z)
    (buffer : list Z) (bufferSize startByte endByte timeoutMilliseconds : Z) : res outcome :=
  if bufferSize <? 2 then Ok (mkOut buffer 0 0 0 [])
  else
    let startTime := ticks O in
    let maxTime := u32 (startTime + timeoutMilliseconds) in
    do ' (found, buffer, nr, ws) <- findLoop fuel rx startByte startTime maxTime buffer 0 [];
    if found : bool then restLoop fuel ticks rx bufferSize endByte maxTime buffer 1 1 nr ws
    else Ok (mkOut buffer 0 1 nr ws).
