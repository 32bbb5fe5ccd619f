(** Specification of sequences of uses of the Arduino SPI bus. *)
From Verif Require Import Base S_Spi M_SpiArduino.

(** one step of [balanced] histories: a byte outside a transaction, or a whole transaction *)
Definition is_exchange (e : busEvent) : Prop := match e with Byte _ _ => True | _ => False end.
Inductive balanced : list busEvent -> Prop :=
| balanced_nil : balanced []
| balanced_byte l b r : balanced l -> balanced (l ++ [Byte b r])
| balanced_transaction l bytes : balanced l -> Forall is_exchange bytes -> balanced (l ++ [Begin] ++ bytes ++ [End]).

(** the bytes clocked out inside ([true]) or outside ([false]) transactions *)
Fixpoint clocked (inside now : bool) (l : list busEvent) : list Z :=
  match l with
  | [] => []
  | Begin :: l => clocked inside true l
  | End :: l => clocked inside false l
  | Byte b _ :: l => (if Bool.eqb inside now then [b] else []) ++ clocked inside now l
  end.

(** a use whose ranges lie in a memory of [size] bytes *)
Definition use_ok (size : Z) (u : busUse) : Prop :=
  match u with
  | Transfer inp out n =>
      0 <= n /\ match inp with Some i => 0 <= i /\ i + n <= size | None => True end /\
      match out with Some o => 0 <= o /\ o + n <= size | None => True end /\
      match inp, out with Some i, Some o => same_or_apart i o n | _, _ => True end
  | SendByte _ => True
  | SendBytes i n => 0 <= i /\ 0 <= n /\ i + n <= size
  end.
(** what a use clocks out, given the memory before it *)
Definition use_bytes (fill : Z) (mem : list Z) (u : busUse) : list Z :=
  match u with
  | Transfer (Some i) _ n => slice mem i n
  | Transfer None (Some _) n => repeat fill (Z.to_nat (n - n mod 4)) ++ repeat 255 (Z.to_nat (n mod 4))
  | Transfer None None _ => []
  | SendByte b => [b]
  | SendBytes i n => slice mem i n
  end.
(** uses that open a transaction *)
Definition opens (u : busUse) : bool := match u with Transfer _ _ _ => true | _ => false end.
(** the effect of one use: its bytes are exchanged, inside a transaction of their own or outside of any, and
    what comes back is stored at the receive pointer *)
Definition use_effect (slave : list busEvent -> Z -> Z) (fill : Z) (u : busUse) (mem : list Z) (log : list busEvent)
    (mem' : list Z) (log' : list busEvent) : Prop :=
  let sent := use_bytes fill mem u in
  exists received,
    answers Byte slave (log ++ (if opens u then [Begin] else [])) sent received /\
    log' = log ++ (if opens u then [Begin] else []) ++ events Byte sent received ++ (if opens u then [End] else []) /\
    mem' = match u with Transfer _ (Some o) _ => blit mem o received | _ => mem end.
Inductive uses_effect (slave : list busEvent -> Z -> Z) (fill : Z) :
    list busUse -> list Z -> list busEvent -> list Z -> list busEvent -> list Z -> list Z -> Prop :=
| no_uses mem log : uses_effect slave fill [] mem log mem log [] []
| one_use u us mem log mem1 log1 mem' log' i o :
    use_effect slave fill u mem log mem1 log1 -> zlen mem1 = zlen mem ->
    uses_effect slave fill us mem1 log1 mem' log' i o ->
    uses_effect slave fill (u :: us) mem log mem' log'
      ((if opens u then use_bytes fill mem u else []) ++ i) ((if opens u then [] else use_bytes fill mem u) ++ o).
