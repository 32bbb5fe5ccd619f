(** Model of esp32-esp-idf/AnalogPin.cpp.

    [map] is adc_channel_io_map: one row per converter unit, one pin number per channel.  The driver is
    described by its answers, which may depend on all earlier calls. *)
From Verif Require Import Base.

(** AnalogPin.cpp:19-25: the loop over the channels of one unit, from channel [j] on *)
Fixpoint findChannel (row : list Z) (pin j : Z) : option Z :=
  match row with
  | [] => None
  | c :: row => if c =? pin then Some j else findChannel row pin (j + 1)
  end.
(** AnalogPin.cpp:17-26: the loop over the units, from unit [i] on *)
Fixpoint findUnit (map : list (list Z)) (pin i : Z) : option (Z * Z) :=
  match map with
  | [] => None
  | row :: map => match findChannel row pin 0 with
                  | Some j => Some (i, j)
                  | None => findUnit map pin (i + 1)
                  end
  end.
(** AnalogPin.cpp:13-29; [pinCount] is SOC_GPIO_PIN_COUNT *)
Definition digitalPinToAnalogChannel (pinCount : Z) (map : list (list Z)) (pin : Z) : option (Z * Z) :=
  if pin <? pinCount then findUnit map pin 0 else None.

Inductive adcCall := NewUnit (unit : Z) | ConfigChannel (unit channel : Z) | ReadChannel (unit channel : Z) | DelUnit (unit : Z).
(** answers of the driver: did the call (the last of the log) succeed, and the value a read gives *)
Record adc := mkAdc { adcOk : list adcCall -> bool; adcValue : list adcCall -> Z }.
(** AnalogPin.cpp:31-57; the unit handle is identified with the unit.  On failure of adc_oneshot_read
    the driver may have stored a value, but -1 is returned. *)
Definition singleReadADC (d : adc) (unit channel : Z) (log : list adcCall) : Z * list adcCall :=
  let result := -1 in
  let log := log ++ [NewUnit unit] in
  if adcOk d log then
    let log := log ++ [ConfigChannel unit channel] in
    if adcOk d log then
      let log := log ++ [ReadChannel unit channel] in
      if negb (adcOk d log) then (-1, log) else (adcValue d log, log)
    else (result, log)
  else (result, log).
(** AnalogPin.cpp:61-88 (the power calls for compilers before GCC 9 are left out) *)
Definition singleRead (d : adc) (pinCount : Z) (map : list (list Z)) (pin : Z) (log : list adcCall) : Z * list adcCall :=
  match digitalPinToAnalogChannel pinCount map pin with
  | None => (-1, log)
  | Some (unit, channel) =>
    if unit =? 0 then singleReadADC d 0 channel log
    else if unit =? 1 then singleReadADC d 1 channel log
    else (-1, log)
  end.
