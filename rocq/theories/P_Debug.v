(** Property C79: debug lines on the UART. *)
From Verif Require Import Base S_BufferedOut M_BufferedOut M_SerialOut L_SerialOut P_SerialOut M_UartArduino M_UartEsp S_Packets M_Debug S_Debug L_Debug.

(** Arduino: whatever write answers, each piece is one write with a timeout of 100, waited for, and the
    device's own timeout is put back. *)
Theorem C79_arduino : forall lines items written T, Forall2 (Forall2 sprints) lines items ->
  exists s' texts calls, srun (concat (map debugLog lines)) serialDebug = Ok s' /\
    Forall2 (clipped_all 128) items texts /\
    ardFlushes written T [] (sent s') = Ok calls /\
    calls = flat_map (fun t => flat_map (fun b => [SetTimeout 100; Write b; FlushTx; SetTimeout T]) (pieces_of t)) texts /\
    on_line calls = concat (map (fun t => t ++ [10]) texts) /\ timeoutAfter T calls = T.
Proof.
  intros lines items written T H. destruct (debug_lines lines items H) as (s' & texts & E & F & S & L).
  eexists s', texts, _. split; [exact E|]. split; [exact F|]. rewrite S.
  destruct (ard_lines_out written T texts [] L eq_refl) as (A & B & C). split; [exact A|]. split; [reflexivity|]. split; [exact B|exact C].
Qed.
Print Assumptions C79_arduino.

(** ESP32: each piece is one write; the driver is waited for exactly when it took something; with a
    driver that takes what it is given the lines leave complete. *)
Theorem C79_esp : forall lines items driver, Forall2 (Forall2 sprints) lines items ->
  exists s' texts calls, srun (concat (map debugLog lines)) serialDebug = Ok s' /\
    Forall2 (clipped_all 128) items texts /\
    espFlushes driver [] (sent s') = Ok calls /\
    flat_map (fun c => match c with WriteBytes bs _ => [bs] | WaitDone => [] end) calls = flat_map pieces_of texts /\
    (forall before bs r after, calls = before ++ WriteBytes bs r :: after ->
       r = driver before bs /\ (0 < r -> exists rest, after = WaitDone :: rest) /\ (r <= 0 -> forall rest, after <> WaitDone :: rest)) /\
    ((forall log bs, driver log bs = zlen bs) -> bytes_out calls = concat (map (fun t => t ++ [10]) texts)) /\
    ((forall log bs, driver log bs = -1) -> bytes_out calls = []).
Proof.
  intros lines items driver H. destruct (debug_lines lines items H) as (s' & texts & E & F & S & L).
  assert (B : Forall (fun b => zlen b <= 65535) (sent s')) by (rewrite S; apply pieces_short; exact L).
  exists s', texts, (esp_calls driver [] (sent s')). split; [exact E|]. split; [exact F|].
  split; [rewrite (esp_flushes driver _ B []); reflexivity|]. split; [rewrite esp_calls_writes; exact S|].
  split; [apply esp_calls_split|]. split.
  - intros D. rewrite esp_calls_all by exact D. rewrite S. apply pieces_concat.
  - intros D. apply esp_calls_none. exact D.
Qed.
Print Assumptions C79_esp.

Example C79_case : exists s' calls,
  srun (concat (map debugLog [[SCStr [72; 105; 0]; SInt 7 []]; [SSpan [171]]])) serialDebug = Ok s' /\
  espFlushes (fun _ bs => zlen bs) [] (sent s') = Ok calls /\
  calls = [WriteBytes [72; 105; 55; 10] 4; WaitDone; WriteBytes [65; 66; 10] 3; WaitDone] /\ bytes_out calls = [72; 105; 55; 10; 65; 66; 10].
Proof. eexists _, _. split; [vm_compute; reflexivity|]. split; [vm_compute; reflexivity|]. split; reflexivity. Qed.
