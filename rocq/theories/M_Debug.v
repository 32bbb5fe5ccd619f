(** Model of Debug.h and SerialDebug.cpp (arduino and esp32-esp-idf): debug lines on the UART.

    SerialOut (M_SerialOut) gives the blocks handed to [PacketUart::Send]; here each block goes through
    the Send of the platform (M_UartArduino, M_UartEsp) to the serial driver. *)
From Verif Require Import Base M_BufferedOut M_SerialOut M_UartArduino M_UartEsp.

(** Debug.h:9 (with DEBUG_SERIAL_OUT defined): [x] is what the macro's argument inserts *)
Definition debugLog (x : list sop) : list sop := x ++ [SEndl].
(** arduino/SerialDebug.cpp:9-13, esp32-esp-idf/SerialDebug.cpp:10-14: zero-initialised buffer of 128 *)
Definition serialDebug : so := So (create (repeat 0 128)) [].

(** Arduino core, Stream::setTimeout/getTimeout: the timeout after some calls *)
Definition timeoutAfter (T : Z) (calls : list serialCall) : Z :=
  fold_left (fun T c => match c with SetTimeout t => t | _ => T end) calls T.
(** arduino/SerialOut.cpp:6-7 for each block: the calls of the serial device.  The size is converted to
    uint16_t (PacketUart.h:18); [written] gives the answers of write (from the calls before and the
    data), [T] is the timeout of the device. *)
Fixpoint ardFlushes (written : list serialCall -> list Z -> Z) (T : Z) (log : list serialCall) (blocks : list (list Z)) : res (list serialCall) :=
  match blocks with
  | [] => Ok log
  | b :: blocks =>
    do ' (_, calls) <- ardSend (timeoutAfter T log) (written log b) b (u16 (zlen b)) 100;
    ardFlushes written T (log ++ calls) blocks
  end.

(** calls of the ESP-IDF UART driver: uart_write_bytes with its answer, uart_wait_tx_done *)
Inductive uartCall := WriteBytes (bs : list Z) (answer : Z) | WaitDone.
(** esp32-esp-idf/SerialOut.cpp:6-7, PacketUart.cpp:15-18 and SimpleUartDevice.cpp:63-71 for each block;
    [driver] gives the answer of uart_write_bytes (from the calls before and the data) *)
Fixpoint espFlushes (driver : list uartCall -> list Z -> Z) (log : list uartCall) (blocks : list (list Z)) : res (list uartCall) :=
  match blocks with
  | [] => Ok log
  | b :: blocks =>
    do data <- rd_slice b 0 (u16 (zlen b));
    let '(r, wait) := sendBlocking (driver log data) in
    espFlushes driver (log ++ [WriteBytes data r] ++ (if wait then [WaitDone] else [])) blocks
  end.
