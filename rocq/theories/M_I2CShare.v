(** Model of code that uses several devices on one I2C bus.  The calls are those of M_I2C; here the
    drivers below them (Arduino's TwoWire and the ESP-IDF master functions, neither in the repository) are
    given by their documented behaviour on a bus with devices: a message to an address (7 bits) reaches
    the device with this address, which acknowledges it or not; TwoWire queues at most [cap] bytes and
    requests at most [cap]; after an acknowledged request the bytes are read one by one.
    Simplifications: every call has its own buffers; a device acknowledges a message as a whole; the bus
    is never held by another master. *)
From Verif Require Import Base M_I2C.

(** one message on the bus: data for the device, or a request for [n] bytes *)
Inductive message := Put (data : list Z) | Ask (n : Z).
(** a device: from its earlier messages and the new one its answer: [None] without acknowledgement, otherwise
    the bytes it gives (to a request) *)
Definition i2cDevice : Type := list message -> message -> option (list Z).
(** the [n] bytes read when a device gives [l]: the line reads FFh when nobody drives it *)
Definition onLine (n : Z) (l : list Z) : list Z := firstn (Z.to_nat n) (map u8 l ++ repeat 255 (Z.to_nat n)).
(** what the device with address [a] has seen of the traffic *)
Definition seen (a : Z) (t : list (Z * message)) : list message := map snd (filter (fun m => fst m =? a) t).
(** the bus address: the driver shifts it left by one bit, in eight bits *)
Definition busAddress (a : Z) : Z := a mod 128.

(** ** Arduino: the state of TwoWire and of the bus, and the answer of the last call *)
Record twi := mkTwi { target : Z; txQueue : list Z; rxQueue : list Z; traffic : list (Z * message); lastAnswer : Z }.
Definition twiStep (devs : Z -> i2cDevice) (cap : Z) (st : twi) (c : i2cCall) : twi :=
  match c with
  | BeginTransmission a => mkTwi (busAddress a) [] (rxQueue st) (traffic st) 0
  | WriteBytes d =>
      let q := firstn (Z.to_nat (cap - zlen (txQueue st))) d in
      mkTwi (target st) (txQueue st ++ q) (rxQueue st) (traffic st) (zlen q)
  | EndTransmission _ =>
      let m := Put (txQueue st) in
      mkTwi (target st) [] (rxQueue st) (traffic st ++ [(target st, m)])
        (match devs (target st) (seen (target st) (traffic st)) m with Some _ => 0 | None => 2 end)
  | RequestFrom a n =>
      let a := busAddress a in let n := Z.min n cap in
      let got := match devs a (seen a (traffic st)) (Ask n) with Some l => onLine n l | None => [] end in
      mkTwi (target st) (txQueue st) got (traffic st ++ [(a, Ask n)]) (zlen got)
  | ReadByte => mkTwi (target st) (txQueue st) (tl (rxQueue st)) (traffic st) (hd (-1) (rxQueue st))
  | _ => st
  end.
Definition twiRun (devs : Z -> i2cDevice) (cap : Z) (t : list (Z * message)) (log : list i2cCall) : twi :=
  fold_left (twiStep devs cap) log (mkTwi 0 [] [] t 0).
Definition twiWire (devs : Z -> i2cDevice) (cap : Z) (t : list (Z * message)) : wire :=
  let answer log := lastAnswer (twiRun devs cap t log) in mkWire answer answer answer answer.

(** ** ESP32: the traffic and the answer of the last call *)
Record espBusState := mkEspBus { espTraffic : list (Z * message); espCode : Z; espBytes : list Z }.
Definition espStep (devs : Z -> i2cDevice) (st : espBusState) (c : i2cCall) : espBusState :=
  match c with
  | WriteTo a d _ =>
      let a := busAddress a in
      mkEspBus (espTraffic st ++ [(a, Put d)])
        (match devs a (seen a (espTraffic st)) (Put d) with Some _ => 0 | None => -1 end) []
  | ReadFrom a n _ =>
      let a := busAddress a in
      match devs a (seen a (espTraffic st)) (Ask n) with
      | Some l => mkEspBus (espTraffic st ++ [(a, Ask n)]) 0 (onLine n l)
      | None => mkEspBus (espTraffic st ++ [(a, Ask n)]) (-1) []
      end
  | _ => st
  end.
Definition espRun (devs : Z -> i2cDevice) (t : list (Z * message)) (log : list i2cCall) : espBusState :=
  fold_left (espStep devs) log (mkEspBus t 0 []).
Definition espMaster (devs : Z -> i2cDevice) (t : list (Z * message)) : espI2C :=
  mkEspI2C (fun log => espCode (espRun devs t log)) (fun log => (espCode (espRun devs t log), espBytes (espRun devs t log))).

(** ** Calls: result, contents of the receive buffer (zeros before the call) and the traffic *)
Inductive request := Send (data : list Z) | Receive (n : Z) | SendThenReceive (data : list Z) (n : Z).
Definition blank (n : Z) : list Z := repeat 0 (Z.to_nat n).
(** I2CDevice.h:16-22 with arduino/I2CDevice.cpp *)
Definition ardCall (devs : Z -> i2cDevice) (cap : Z) (a : Z) (r : request) (t : list (Z * message)) : res (bool * list Z * list (Z * message)) :=
  let w := twiWire devs cap t in
  match r with
  | Send d => do ' (ok, log) <- ardSendSync w a d 0 (zlen d) []; Ok (ok, [], traffic (twiRun devs cap t log))
  | Receive n => do ' (ok, mem, log) <- ardReceiveSync w a (blank n) 0 n []; Ok (ok, mem, traffic (twiRun devs cap t log))
  | SendThenReceive d n =>
      do ' (ok, mem, log) <- ardSendThenReceive w a (d ++ blank n) 0 (zlen d) (zlen d) n [];
      Ok (ok, slice mem (zlen d) n, traffic (twiRun devs cap t log))
  end.
(** I2CDevice.h:16-22 with esp32-esp-idf/I2CDevice.cpp *)
Definition espCall (devs : Z -> i2cDevice) (tick timeout : Z) (a : Z) (r : request) (t : list (Z * message)) : res (bool * list Z * list (Z * message)) :=
  let d := espMaster devs t in
  match r with
  | Send b => do ' (ok, log) <- espSendSync d tick a timeout b 0 (zlen b) []; Ok (ok, [], espTraffic (espRun devs t log))
  | Receive n => do ' (ok, mem, log) <- espReceiveSync d tick a timeout (blank n) 0 n []; Ok (ok, mem, espTraffic (espRun devs t log))
  | SendThenReceive b n =>
      do ' (ok, mem, log) <- espSendThenReceive d tick a timeout (b ++ blank n) 0 (zlen b) (zlen b) n [];
      Ok (ok, slice mem (zlen b) n, espTraffic (espRun devs t log))
  end.
(** a sequence of calls for devices (constructed with these addresses) on one bus *)
Fixpoint callAll (call : Z -> request -> list (Z * message) -> res (bool * list Z * list (Z * message)))
    (rs : list (Z * request)) (t : list (Z * message)) : res (list (bool * list Z) * list (Z * message)) :=
  match rs with
  | [] => Ok ([], t)
  | (a, r) :: rs => do ' (ok, mem, t) <- call a r t;
                    do ' (l, t) <- callAll call rs t;
                    Ok ((ok, mem) :: l, t)
  end.
