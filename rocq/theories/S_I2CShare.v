(** Specification vocabulary for devices sharing an I2C bus: one device on its own. *)
From Verif Require Import Base M_I2CShare.

(** the bytes of a receive buffer of [n] zeros after a device gave [l]: at most [n], FFh for missing ones *)
Definition received (n : Z) (l : list Z) : list Z :=
  map (fun i => nth i (map (fun b => b mod 256) l) 255) (seq 0 (Z.to_nat n)).
Definition zeros (n : Z) : list Z := repeat 0 (Z.to_nat n).
(** one call of a device with earlier messages [h], when at most [cap] bytes pass in one message: result,
    receive buffer, messages; [lax]: a request for no bytes succeeds also without acknowledgement *)
Definition put_alone (cap : Z) (dev : i2cDevice) (h : list message) (d : list Z) : bool * list message :=
  let m := Put (firstn (Z.to_nat cap) d) in
  (match dev h m with Some _ => zlen d <=? cap | None => false end, h ++ [m]).
Definition ask_alone (lax : bool) (cap : Z) (dev : i2cDevice) (h : list message) (n : Z) : bool * list Z * list message :=
  let m := Ask (Z.min n cap) in
  (match dev h m with Some l => if n <=? cap then (true, received n l) else (false, zeros n) | None => (lax && (n =? 0), zeros n) end, h ++ [m]).
Definition call_alone (lax : bool) (cap : Z) (dev : i2cDevice) (h : list message) (r : request) : bool * list Z * list message :=
  match r with
  | Send d => let '(ok, h) := put_alone cap dev h d in (ok, [], h)
  | Receive n => ask_alone lax cap dev h n
  | SendThenReceive d n =>
      let '(ok, h) := put_alone cap dev h d in
      if ok then ask_alone lax cap dev h n else (false, zeros n, h)
  end.
Fixpoint alone (lax : bool) (cap : Z) (dev : i2cDevice) (h : list message) (rs : list request) : list (bool * list Z) * list message :=
  match rs with
  | [] => ([], h)
  | r :: rs => let '(x, h) := call_alone lax cap dev h r in
               let '(l, h) := alone lax cap dev h rs in (x :: l, h)
  end.
(** the part of a list that belongs to bus address [a] *)
Definition at_address {A : Type} (a : Z) (l : list (Z * A)) : list A := map snd (filter (fun x => fst x mod 128 =? a) l).
Definition request_ok (r : request) : Prop :=
  match r with Send d => zlen d <= 65535 | Receive n => 0 <= n <= 65535 | SendThenReceive d n => zlen d <= 65535 /\ 0 <= n <= 65535 end.
