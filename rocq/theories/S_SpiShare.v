(** Specification vocabulary for devices sharing an SPI bus. *)
From Verif Require Import Base M_SpiShare.

(** a device: the frames it has seen, the bytes of the current frame and the next byte give its answer *)
Definition device : Type := list (list Z) -> list Z -> Z -> Z.
(** what the device with select pin [p] has seen: is it selected, the finished frames, the current one *)
Definition see (p : Z) (s : bool * list (list Z) * list Z) (x : wire) : bool * list (list Z) * list Z :=
  let '(sel, frames, cur) := s in
  match x with
  | Pin q high => if q =? p then
                    if high then (false, if sel then frames ++ [cur] else frames, [])
                    else if sel then s else (true, frames, [])
                  else s
  | Clocked b => if sel then (sel, frames, cur ++ [b]) else s
  end.
Definition seen (p : Z) (w : list wire) : bool * list (list Z) * list Z := fold_left (see p) w (false, [], []).
Definition selected p w := fst (fst (seen p w)).
Definition frames p w := snd (fst (seen p w)).
Definition current p w := snd (seen p w).
(** the bus: the only selected device answers; otherwise anything may be read *)
Definition shared (pins : list Z) (dev : Z -> device) (noise : list wire -> Z -> Z) : list wire -> Z -> Z :=
  fun w b => match filter (fun p => selected p w) pins with
             | [p] => dev p (frames p w) (current p w) b
             | _ => noise w b
             end.

(** a device on its own: its answers to [data] *)
Fixpoint replies (d : device) (fs : list (list Z)) (cur data : list Z) : list Z :=
  match data with
  | [] => []
  | b :: data => d fs cur b mod 256 :: replies d fs (cur ++ [b]) data
  end.
(** what the caller finds in the receive buffer *)
Definition stored (r : request) (answer : list Z) : list Z := match r with Send _ => [] | _ => answer end.
(** a conversation with a device on its own; [bytes r] are the bytes sent for a request *)
Fixpoint alone (bytes : request -> list Z) (d : device) (fs : list (list Z)) (cur : list Z) (rs : list request) : list (bool * list Z) :=
  match rs with
  | [] => []
  | r :: rs => (true, stored r (replies d fs cur (bytes r))) :: alone bytes d fs (cur ++ bytes r) rs
  end.
(** the frames of a device in a list of conversations *)
Definition its_frames (bytes : request -> list Z) (p : Z) (ss : list (Z * list request)) : list (list Z) :=
  map (fun s => flat_map bytes (snd s)) (filter (fun s => fst s =? p) ss).
(** the bytes sent: on Arduino a receive sends [fill] for whole words and 255 for the rest *)
Definition ard_bytes (fill : Z) (r : request) : list Z :=
  match r with Send d | Exchange d => d | Receive n => repeat fill (n / 4 * 4) ++ repeat 255 (n mod 4) end.
Definition esp_bytes (idle : Z) (r : request) : list Z :=
  match r with Send d | Exchange d => d | Receive n => repeat idle n end.
(** the requests an ESP32 bus opened in half or full duplex mode is meant for (SpiDevice.h); in full
    duplex what is only sent has to fit one piece or fill its last piece *)
Definition meant_for (half : bool) (m : Z) (r : request) : Prop :=
  match r with Send d => half = true \/ zlen d <= m \/ zlen d mod m = 0 | Receive _ => half = true | Exchange _ => half = false end.
