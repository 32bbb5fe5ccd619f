(** Model of I2CDevice.h, arduino/I2CDevice.cpp, arduino/I2CBus.cpp, esp32-esp-idf/I2CDevice.cpp and
    esp32-esp-idf/I2CBus.cpp (testAddress, resetBus).

    The log is the sequence of driver calls with what they were given; the answers of the driver are
    arbitrary functions of the log. *)
From Verif Require Import Base.

Inductive i2cCall :=
| BeginTransmission (address : Z) | WriteBytes (data : list Z) | EndTransmission (stop : bool)
| RequestFrom (address count : Z) | ReadByte
| WriteTo (address : Z) (data : list Z) (ticks : Z) | ReadFrom (address count ticks : Z).

(** answers of Arduino's TwoWire: bytes queued by write, code of endTransmission, bytes got by
    requestFrom, value of read *)
Record wire := mkWire { queued : list i2cCall -> Z; endCode : list i2cCall -> Z; requested : list i2cCall -> Z; readValue : list i2cCall -> Z }.

(** arduino/I2CDevice.cpp:4-9 *)
Definition ardSendSync (w : wire) (address : Z) (mem : list Z) (data count : Z) (log : list i2cCall) : res (bool * list i2cCall) :=
  let log := log ++ [BeginTransmission address] in
  do d <- rd_slice mem data count;
  let result := queued w (log ++ [WriteBytes d]) in
  let log := log ++ [WriteBytes d] in
  let log := log ++ [EndTransmission true] in
  Ok ((endCode w log =? 0) && (result =? count), log).
(** arduino/I2CDevice.cpp:18-20 *)
Fixpoint ardReadLoop (w : wire) (k : nat) (mem : list Z) (data i : Z) (log : list i2cCall) : res (list Z * list i2cCall) :=
  match k with
  | O => Ok (mem, log)
  | S k => let log := log ++ [ReadByte] in
           do mem <- wr mem (data + i) (u8 (readValue w log));
           ardReadLoop w k mem data (i + 1) log
  end.
(** arduino/I2CDevice.cpp:11-22 *)
Definition ardReceiveSync (w : wire) (address : Z) (mem : list Z) (data count : Z) (log : list i2cCall) : res (bool * list Z * list i2cCall) :=
  let log := log ++ [RequestFrom address count] in
  let recv := requested w log in
  if negb (recv =? count) then Ok (false, mem, log)
  else do '(mem, log) <- ardReadLoop w (Z.to_nat count) mem data 0 log; Ok (true, mem, log).
(** I2CDevice.h:19-22 for Arduino *)
Definition ardSendThenReceive (w : wire) (address : Z) (mem : list Z) (txData txCount rxData rxCount : Z) (log : list i2cCall) : res (bool * list Z * list i2cCall) :=
  do '(ok, log) <- ardSendSync w address mem txData txCount log;
  if ok : bool then ardReceiveSync w address mem rxData rxCount log else Ok (false, mem, log).

(** answers of the ESP-IDF driver: code of a write; code of a read and the bytes it stored *)
Record espI2C := mkEspI2C { writeCode : list i2cCall -> Z; readAnswer : list i2cCall -> Z * list Z }.
(** esp32-esp-idf/I2CDevice.cpp:7-10; [tick] is portTICK_PERIOD_MS.  The driver's functions take the
    address as a uint8_t. *)
Definition espSendSync (d : espI2C) (tick address timeout : Z) (mem : list Z) (data count : Z) (log : list i2cCall) : res (bool * list i2cCall) :=
  do b <- rd_slice mem data count;
  let log := log ++ [WriteTo (u8 address) b (timeout / tick)] in
  Ok (writeCode d log =? 0, log).
(** esp32-esp-idf/I2CDevice.cpp:12-15 *)
Definition espReceiveSync (d : espI2C) (tick address timeout : Z) (mem : list Z) (data count : Z) (log : list i2cCall) : res (bool * list Z * list i2cCall) :=
  let log := log ++ [ReadFrom (u8 address) count (timeout / tick)] in
  let '(code, bytes) := readAnswer d log in
  do mem <- wr_slice mem data bytes;
  Ok (code =? 0, mem, log).
(** I2CDevice.h:19-22 for ESP32 *)
Definition espSendThenReceive (d : espI2C) (tick address timeout : Z) (mem : list Z) (txData txCount rxData rxCount : Z) (log : list i2cCall) : res (bool * list Z * list i2cCall) :=
  do '(ok, log) <- espSendSync d tick address timeout mem txData txCount log;
  if ok : bool then espReceiveSync d tick address timeout mem rxData rxCount log else Ok (false, mem, log).

(** esp32-esp-idf/I2CBus.cpp:14: the byte testAddress puts on the bus after the start condition (the
    driver takes a uint8_t; I2C_MASTER_WRITE is 0) *)
Definition testAddressByte (address : Z) : Z := u8 (Z.lor (Z.shiftl (u8 address) 1) 0).
(** esp32-esp-idf/I2CBus.cpp:4-8 *)
Definition espResetBus (log : list i2cCall) : list i2cCall := log ++ [WriteTo 0 [6] 200].
(** arduino/I2CBus.cpp:3-8; the default of endTransmission's argument is true *)
Definition ardResetBus (log : list i2cCall) : list i2cCall := log ++ [BeginTransmission 0; WriteBytes [6]; EndTransmission true].
