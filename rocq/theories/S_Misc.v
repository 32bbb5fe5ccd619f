(** Specification vocabulary for pins, I2C, analog pins, delays and sleeps. *)
From Verif Require Import Base M_Gpio M_Analog M_Delays.

(** the level last written to a pin *)
Fixpoint last_level (p : Z) (log : list (Z * bool)) : option bool :=
  match log with
  | [] => None
  | (q, level) :: log => match last_level p log with
                         | Some l => Some l
                         | None => if q =? p then Some level else None
                         end
  end.
(** code that does not touch pin [p] *)
Fixpoint leaves_alone (p : Z) (c : prog) : Prop :=
  match c with
  | Done => True
  | SetLevel q _ rest => q <> p /\ leaves_alone p rest
  | Scope q body rest => q <> p /\ leaves_alone p body /\ leaves_alone p rest
  end.
(** hardware that reads back the level last written *)
Definition reads_back (readPin : list (Z * bool) -> Z -> Z) : Prop :=
  forall log p level, last_level p log = Some level -> (readPin log p <> 0 <-> level = true).
(** [(i, j)] is the first place of the table (row by row) that holds [x] *)
Definition first_place (map : list (list Z)) (x i j : Z) : Prop :=
  0 <= i /\ 0 <= j /\ nth_error (nth (Z.to_nat i) map []) (Z.to_nat j) = Some x /\
  (forall k, (k < Z.to_nat j)%nat -> nth_error (nth (Z.to_nat i) map []) k <> Some x) /\
  (forall r, (r < Z.to_nat i)%nat -> ~ In x (nth r map [])).

(** light sleep: the number of the clock reading with which round [k] begins, the first being number
    [nt]: a round takes two readings, three if the attempt to sleep (number [ns] in the first round)
    failed *)
Fixpoint round_start (sleeps : nat -> bool) (nt ns : nat) (k : nat) : nat :=
  match k with O => nt | S k => round_start sleeps (nt + (if sleeps ns then 2 else 3))%nat (S ns) k end.
(** the calls of a round that begins with reading [s] and makes sleep attempt [n] *)
Definition round_calls (ticks : nat -> Z) (sleeps : nat -> bool) (tick wait : Z) (s n : nat) : list sleepCall :=
  [Wakeup ((1000 * (wait - ticks (S s))) mod 4294967296); LightSleep] ++
  (if sleeps n then [] else if ticks (S (S s)) <? wait then [DelayTicks ((wait - ticks (S (S s))) / tick)] else []).

(** readings of a list of pins, one after the other *)
Fixpoint readAll (d : adc) (pinCount : Z) (map : list (list Z)) (pins : list Z) (log : list adcCall) : list Z * list adcCall :=
  match pins with
  | [] => ([], log)
  | p :: pins => let '(v, log) := singleRead d pinCount map p log in
                 let '(vs, log) := readAll d pinCount map pins log in (v :: vs, log)
  end.
