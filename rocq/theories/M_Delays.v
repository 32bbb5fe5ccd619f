(** Model of esp32-esp-idf/Delays.cpp, esp32-esp-idf/SleepFunctions.h and arduino/Delays.cpp.

    [ticks n] is the result of clock reading number [n] (milliseconds, or microseconds for
    delayMicroseconds). *)
From Verif Require Import Base.

Definition u64 (z : Z) : Z := z mod 18446744073709551616.

(** esp32-esp-idf/Delays.cpp:8-11: the number of scheduler ticks waited; [tick] is portTICK_PERIOD_MS *)
Definition delayTicksOf (tick milliseconds : Z) : Z := milliseconds / tick.
(** esp32-esp-idf/Delays.cpp:13-16; [time] is esp_timer_get_time, a non-negative 64-bit number *)
Definition millisecondTicks (time : Z) : Z := u32 (time / 1000).
(** esp32-esp-idf/Delays.cpp:31-34 *)
Definition microsecondTicks (time : Z) : Z := u64 time.
(** arduino/Delays.cpp:20-23: micros() is a 32-bit number *)
Definition ardMicrosecondTicks (micros : Z) : Z := u64 (u32 micros).

(** esp32-esp-idf/Delays.cpp:25 and 27: reading until a reading stops satisfying [again]; the number
    of the first reading not used *)
Fixpoint spin (fuel : nat) (ticks : nat -> Z) (again : Z -> bool) (nt : nat) : res nat :=
  match fuel with
  | O => Fuel
  | S fuel => if again (u64 (ticks nt)) then spin fuel ticks again (S nt) else Ok (S nt)
  end.
(** esp32-esp-idf/Delays.cpp:18-29; the result is the number of clock readings made *)
Definition delayMicroseconds (fuel : nat) (ticks : nat -> Z) (microseconds : Z) : res nat :=
  if microseconds =? 0 then Ok O
  else
    let current := u64 (ticks O) in
    let expected := u64 (current + microseconds) in
    do nt <- (if expected <? current then spin fuel ticks (fun t => expected <? t) 1%nat else Ok 1%nat);
    spin fuel ticks (fun t => t <? expected) nt.

(** driver calls of the sleep functions: set the wake-up timer, light sleep, wait some scheduler ticks,
    deep sleep *)
Inductive sleepCall := Wakeup (microseconds : Z) | LightSleep | DelayTicks (n : Z) | DeepSleep.
(** SleepFunctions.h:14-25: the loop of ligntSleep; [sleeps n] tells whether the [n]-th attempt to sleep
    succeeded *)
Fixpoint lightLoop (fuel : nat) (ticks : nat -> Z) (sleeps : nat -> bool) (tick wait : Z) (nt ns : nat) (log : list sleepCall) : res (nat * list sleepCall) :=
  match fuel with
  | O => Fuel
  | S fuel =>
    if ticks nt <? wait then
      let nt := S nt in
      let log := log ++ [Wakeup (u32 (u32 (wait - ticks nt) * 1000)); LightSleep] in
      let nt := S nt in
      if sleeps ns then lightLoop fuel ticks sleeps tick wait nt (S ns) log
      else
        let current := ticks nt in
        let nt := S nt in
        let log := if current <? wait then log ++ [DelayTicks (delayTicksOf tick (wait - current))] else log in
        lightLoop fuel ticks sleeps tick wait nt (S ns) log
    else Ok (S nt, log)
  end.
(** SleepFunctions.h:9-26; the number of clock readings made and the calls *)
Definition lightSleep (fuel : nat) (ticks : nat -> Z) (sleeps : nat -> bool) (tick milliseconds : Z) : res (nat * list sleepCall) :=
  let tickstart := ticks O in
  let wait := u32 (tickstart + milliseconds) in
  lightLoop fuel ticks sleeps tick wait 1 0 [].
(** SleepFunctions.h:29-33 *)
Definition deepSleep (milliseconds : Z) : list sleepCall := [Wakeup (u64 (milliseconds * 1000)); DeepSleep].
