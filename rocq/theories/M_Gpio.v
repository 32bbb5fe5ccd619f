(** Model of GpioDigitalPin.h, arduino/GpioDigitalPin.cpp and esp32-esp-idf/GpioDigitalPin.cpp.

    The log is the sequence of levels written: (pin, high?).  What the hardware reads back is any
    function [readPin] of the log and the pin. *)
From Verif Require Import Base.

Definition pinLog : Type := list (Z * bool).
(** arduino/GpioDigitalPin.cpp:9-12, esp32-esp-idf/GpioDigitalPin.cpp:15-18: [set()] *)
Definition pinSet (p : Z) (log : pinLog) : pinLog := log ++ [(p, true)].
(** arduino/GpioDigitalPin.cpp:14-17, esp32-esp-idf/GpioDigitalPin.cpp:20-23: [reset()] *)
Definition pinReset (p : Z) (log : pinLog) : pinLog := log ++ [(p, false)].
(** GpioDigitalPin.h:22-28: [set(bool)] *)
Definition pinSetLevel (p : Z) (level : bool) (log : pinLog) : pinLog :=
  if level then pinSet p log else pinReset p log.
(** arduino/GpioDigitalPin.cpp:19-22, esp32-esp-idf/GpioDigitalPin.cpp:25-28: [check()] *)
Definition pinCheck (readPin : pinLog -> Z -> Z) (p : Z) (log : pinLog) : bool := negb (readPin log p =? 0).

(** GpioDigitalPin.h:38-41: constructor of ChipSelector *)
Definition selectorBegin (p : Z) (log : pinLog) : pinLog := pinReset p log.
(** GpioDigitalPin.h:43-46: destructor of ChipSelector *)
Definition selectorEnd (p : Z) (log : pinLog) : pinLog := pinSet p log.
(** Code using pins: set(level) calls and blocks with a ChipSelector in them (C++ scoping: constructor
    at the beginning, destructor at the end) *)
Inductive prog :=
| Done
| SetLevel (p : Z) (level : bool) (rest : prog)
| Scope (p : Z) (body rest : prog).
Fixpoint runProg (c : prog) (log : pinLog) : pinLog :=
  match c with
  | Done => log
  | SetLevel p level rest => runProg rest (pinSetLevel p level log)
  | Scope p body rest => runProg rest (selectorEnd p (runProg body (selectorBegin p log)))
  end.

(** GpioDigitalPin.h:12-13 *)
Inductive direction := Input | Output.
Inductive pullMode := PullUp | PullDown | PullNone.
(** esp32-esp-idf/GpioDigitalPin.cpp:36-42: the fields of gpio_config_t; interrupts are always off *)
Record gpioConfig := mkGpio { pinBitMask : Z; modeInput : bool; pullUpEn : bool; pullDownEn : bool }.
(** esp32-esp-idf/GpioDigitalPin.cpp:30-45; [valid] is GPIO_IS_VALID_GPIO, [configure] the answer of
    gpio_config (0 is ESP_OK).  Result and the configuration handed to the driver. *)
Definition espPinInit (valid : Z -> bool) (configure : gpioConfig -> Z) (pin : Z) (dir : direction) (pull : pullMode) : bool * option gpioConfig :=
  if negb (valid pin) then (false, None)
  else
    let conf := mkGpio (Z.shiftl 1 pin)
      (match dir with Input => true | Output => false end)
      (match pull with PullUp => true | _ => false end)
      (match pull with PullDown => true | _ => false end) in
    (configure conf =? 0, Some conf).
(** arduino/GpioDigitalPin.cpp:24-37; the four constants are those of the Arduino core.  Result and the
    mode handed to pinMode. *)
Definition ardPinInit (cINPUT cOUTPUT cPULLUP cPULLDOWN : Z) (dir : direction) (pull : pullMode) : bool * Z :=
  let pinType := match dir with Input => cINPUT | Output => cOUTPUT end in
  let pinType := match pull with
                 | PullUp => u8 (Z.lor pinType cPULLUP)
                 | PullDown => u8 (Z.lor pinType cPULLDOWN)
                 | PullNone => u8 pinType
                 end in
  (true, pinType).
