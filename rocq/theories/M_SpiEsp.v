(** Model of esp32-esp-idf/SpiBus.cpp and esp32-esp-idf/SpiDevice.cpp.

    A transaction handed to the driver is described by the bytes at its transmit pointer, its two bit
    lengths and its receive pointer (an offset in the memory).  The structure is the same one for all
    pieces (SpiBus.cpp:11) and the driver gets a pointer to it that is not const: the driver is any
    function from the transactions so far and the new one to a success flag, the bytes it stores at the
    receive pointer and the receive length it leaves in the structure.  Simplification: it leaves the
    other fields alone (ESP-IDF changes no other one). *)
From Verif Require Import Base.

Record transaction := mkTr { txData : option (list Z); lengthBits : Z; rxPtr : option Z; rxBits : Z }.
Record reply := mkReply { accepted : bool; received : list Z; rxLeft : Z }.
Definition driver : Type := list transaction -> transaction -> reply.

(** SpiBus.cpp:13-39, the loop of [transfer].  [mem] is the memory both buffers lie in, [send] and
    [recv] are offsets in it ([None]: null pointer), [rxlength] is that field of the structure.  A null
    [send] leaves the transmit length at its initial 0, a null [recv] leaves the receive length as it is. *)
Fixpoint transferLoop (fuel : nat) (drv : driver) (maxTransferSize : Z) (mem : list Z) (log : list transaction)
    (rxlength : Z) (send recv : option Z) (length : Z) : res (bool * list Z * list transaction) :=
  match fuel with
  | O => Fuel
  | S fuel =>
    if 0 <? length then
      let effectiveLength := Z.min length maxTransferSize in
      do tx <- match send with
               | Some s => do d <- rd_slice mem s effectiveLength; Ok (Some d, u32 (8 * effectiveLength))
               | None => Ok (None, 0)
               end;
      let rxl := match recv with Some _ => u32 (8 * effectiveLength) | None => rxlength end in
      let tr := mkTr (fst tx) (snd tx) recv rxl in
      let r := drv log tr in
      do mem <- match recv with Some p => wr_slice mem p (received r) | None => Ok mem end;
      let log := log ++ [tr] in
      if accepted r then
        transferLoop fuel drv maxTransferSize mem log (rxLeft r)
          (match send with Some s => Some (s + effectiveLength) | None => None end)
          (match recv with Some p => Some (p + effectiveLength) | None => None end)
          (length - effectiveLength)
      else Ok (false, mem, log)
    else Ok (true, mem, log)
  end.
(** SpiBus.cpp:9-42 *)
Definition espTransfer (fuel : nat) (drv : driver) (maxTransferSize : Z) (mem : list Z) (send recv : option Z) (length : Z) :=
  transferLoop fuel drv maxTransferSize mem [] 0 send recv length.

(** ** Life of the bus object *)
(** SpiBus.h:15-19 *)
Inductive duplexMode := Half | Full.
(** SpiBus.cpp:51-58: the fields of spi_bus_config_t that depend on the arguments (the quad lines are
    always off, the flags fixed) *)
Record busConfig := mkBusConfig { mosiPin : Z; misoPin : Z; sclkPin : Z; maxTransferSz : Z }.
(** SpiBus.cpp:65-73: the fields of spi_device_interface_config_t that depend on the arguments (mode 0, no
    select pin and a queue of 7 are fixed) *)
Record deviceConfig := mkDeviceConfig { clockSpeedHz : Z; halfDuplex : bool }.
(** driver calls: initialise the bus, add a device (the handle it got), remove a device, free the bus *)
Inductive busCall := Initialise (c : busConfig) | AddDevice (d : deviceConfig) | Remove (handle : Z) | Free.
(** uint32_t to int *)
Definition toInt (z : Z) : Z := if u32 z <? 2147483648 then u32 z else u32 z - 4294967296.
(** SpiBus.h:29-30 *)
Record bus := mkBus { spiDevice : option Z; maxTransferSize : Z }.
(** SpiBus.h:21 *)
Definition newBus : bus := mkBus None 0.
(** answers of the driver to its calls: whether call number [n] succeeded, and the handle it gives *)
Record busDriver := mkBusDriver { succeeds : nat -> bool; handleOf : nat -> Z }.

(** SpiBus.cpp:44-76; [chunk] is LLDESC_MAX_NUM_PER_DESC.  The handle is stored only by a successful
    call (as in ESP-IDF). *)
Definition busInit (drv : busDriver) (chunk : Z) (sck miso mosi frequency : Z) (mode : duplexMode) (b : bus) (log : list busCall) : bool * bus * list busCall :=
  let b := mkBus (spiDevice b) chunk in
  let n := length log in
  let log := log ++ [Initialise (mkBusConfig mosi miso sck (toInt (maxTransferSize b)))] in
  if negb (succeeds drv n) then (false, b, log)
  else
    let n := length log in
    let log := log ++ [AddDevice (mkDeviceConfig (toInt frequency) (match mode with Half => true | Full => false end))] in
    if succeeds drv n then (true, mkBus (Some (handleOf drv n)) (maxTransferSize b), log) else (false, b, log).
(** SpiBus.cpp:78-90; spi_bus_remove_device gives 0 (ESP_OK) on success *)
Definition busRelease (drv : busDriver) (b : bus) (log : list busCall) : bool * bus * list busCall :=
  match spiDevice b with
  | Some h =>
    let n := length log in
    let log := log ++ [Remove h] in
    if negb (succeeds drv n) then
      let b := mkBus None (maxTransferSize b) in
      let n := length log in
      let log := log ++ [Free] in
      (succeeds drv n, b, log)
    else (false, b, log)
  | None => (true, b, log)
  end.
(** SpiBus.cpp:92-95 *)
Definition busDestroy (drv : busDriver) (b : bus) (log : list busCall) : list busCall :=
  let '(_, _, log) := busRelease drv b log in log.
