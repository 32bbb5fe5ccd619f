(** Model of SimpleUartDevice::init (esp32-esp-idf/SimpleUartDevice.cpp:25-61).

    ESP_ERROR_CHECK aborts the program when the driver reports an error: outcome [Aborted]. *)
From Verif Require Import Base.

(** SimpleUartDevice.cpp:39-50 (the fields that depend on the arguments; enumerators as numbers) *)
Record uartConfig := mkUart { baud : Z; dataBits : Z; parity : Z; stopBits : Z; flowCtrl : Z; rxThreshold : Z }.
Inductive uartCall := ParamConfig (uart : Z) (c : uartConfig) | SetPin (uart txPin rxPin : Z) | Install (uart rxBuffer : Z).
Inductive initOutcome := Returned (result : bool) | Aborted.
(** [installed] is uart_is_driver_installed, [ok] the answer to a call, [fifo] is UART_HW_FIFO_LEN *)
Definition uartInit (installed : Z -> bool) (ok : uartCall -> bool) (fifo : Z -> Z)
    (uartNumber rxPin txPin baudRate dataB parityC stopB flow : Z) : initOutcome * list uartCall :=
  if installed uartNumber then (Returned true, [])
  else
    let conf := mkUart baudRate dataB parityC stopB flow (u8 (if flow =? 0 then 0 else 122)) in
    let c1 := ParamConfig uartNumber conf in
    if negb (ok c1) then (Aborted, [c1])
    else
      let c2 := SetPin uartNumber txPin rxPin in
      if negb (ok c2) then (Aborted, [c1; c2])
      else
        let c3 := Install uartNumber (fifo uartNumber * 2) in
        if negb (ok c3) then (Aborted, [c1; c2; c3]) else (Returned true, [c1; c2; c3]).
