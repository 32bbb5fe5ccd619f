(** Property C86: devices sharing an I2C bus. *)
From Verif Require Import Base M_I2CShare S_I2CShare L_I2CShare.

(** Arduino (where a request for no bytes succeeds also if nobody acknowledges it): what the calls for the devices at one bus address give, and what this device sees, is as if it were
    alone on the bus. *)
Theorem C86_arduino : forall devs cap rs t, 0 <= cap -> Forall (fun x => request_ok (snd x)) rs ->
  exists ls t', callAll (ardCall devs cap) rs t = Ok (ls, t') /\ length ls = length rs /\
    forall a, alone true cap (devs a) (seen a t) (at_address a rs) = (at_address a (combine (map fst rs) ls), seen a t').
Proof.
  intros devs cap rs t Hc H. apply all_alone. revert H. apply Forall_impl. intros x Hx. apply ard_does; assumption.
Qed.
Print Assumptions C86_arduino.
(** ESP32: the same without a limit for messages (the counts are 16-bit numbers). *)
Theorem C86_esp : forall devs tick timeout rs t, Forall (fun x => request_ok (snd x)) rs ->
  exists ls t', callAll (espCall devs tick timeout) rs t = Ok (ls, t') /\ length ls = length rs /\
    forall a, alone false 65535 (devs a) (seen a t) (at_address a rs) = (at_address a (combine (map fst rs) ls), seen a t').
Proof.
  intros devs tick timeout rs t H. apply all_alone. revert H. apply Forall_impl. intros x Hx. apply esp_does; assumption.
Qed.
Print Assumptions C86_esp.
(** A call that returns false may have reached the device: TwoWire sends the part that fitted its queue. *)
Theorem C86_false_means_unseen_refuted : exists devs cap a d t', 0 <= cap /\
  ardCall devs cap a (Send d) [] = Ok (false, [], t') /\ seen a t' = [Put (firstn (Z.to_nat cap) d)] /\ devs a [] (Put (firstn (Z.to_nat cap) d)) <> None.
Proof.
  exists (fun _ _ _ => Some []), 2, 60, [1; 2; 3]. eexists. split; [lia|]. split; [vm_compute; reflexivity|]. split; [reflexivity|discriminate].
Qed.
Print Assumptions C86_false_means_unseen_refuted.
(** Different addresses do not make different devices: 128 apart they are the same one, on both platforms. *)
Theorem C86_addresses_refuted : exists devs a b d n, a <> b /\ 0 <= a < 256 /\ 0 <= b < 256 /\
  callAll (espCall devs 10 200) [(a, Receive n)] [] <> callAll (espCall devs 10 200) [(b, Send d); (a, Receive n)] [] /\
  (exists x t, callAll (espCall devs 10 200) [(a, Receive n)] [] = Ok ([x], t) /\
   forall y z t', callAll (espCall devs 10 200) [(b, Send d); (a, Receive n)] [] = Ok ([y; z], t') -> z <> x) /\
  (exists x t, callAll (ardCall devs 32) [(a, Receive n)] [] = Ok ([x], t) /\
   forall y z t', callAll (ardCall devs 32) [(b, Send d); (a, Receive n)] [] = Ok ([y; z], t') -> z <> x).
Proof.
  exists (fun _ h _ => Some [zlen h]), 16, 144, [5], 1. split; [lia|]. split; [lia|]. split; [lia|]. split; [vm_compute; discriminate|]. split.
  - eexists _, _. split; [vm_compute; reflexivity|]. intros y z t' E. vm_compute in E. injection E as _ <- _. discriminate.
  - eexists _, _. split; [vm_compute; reflexivity|]. intros y z t' E. vm_compute in E. injection E as _ <- _. discriminate.
Qed.
Print Assumptions C86_addresses_refuted.

(** A memory chip (address 80: the first byte written is the position of the next read), a device that gives the number
    of its messages (address 16), nobody elsewhere. *)
Definition C86_dev (a : Z) : i2cDevice := fun h m =>
  if a =? 80 then
    match m with
    | Put _ => Some []
    | Ask n => Some (map (fun i => 100 + i) (map (fun i => Z.of_nat i + match rev h with Put (p :: _) :: _ => p | _ => 0 end) (seq 0 (Z.to_nat n))))
    end
  else if a =? 16 then Some [zlen h] else None.
Definition C86_calls : list (Z * request) :=
  [(80, Send [7]); (16, Receive 2); (80, Receive 3); (33, SendThenReceive [1] 2); (16, SendThenReceive [9] 1); (33, Receive 0); (80, SendThenReceive [4; 5; 6] 2)].
Example C86_case_arduino : Forall (fun x => request_ok (snd x)) C86_calls /\ exists t, callAll (ardCall C86_dev 2) C86_calls [] =
  Ok ([(true, []); (true, [0; 255]); (false, [0; 0; 0]); (false, [0; 0]); (true, [2]); (true, []); (false, [0; 0])], t) /\
  seen 80 t = [Put [7]; Ask 2; Put [4; 5]] /\ seen 33 t = [Put [1]; Ask 0].
Proof. split; [repeat constructor; vm_compute; congruence|]. eexists. split; [vm_compute; reflexivity|]. split; reflexivity. Qed.
Example C86_case_esp : exists t, callAll (espCall C86_dev 10 200) C86_calls [] =
  Ok ([(true, []); (true, [0; 255]); (true, [107; 108; 109]); (false, [0; 0]); (true, [2]); (false, []); (true, [104; 105])], t) /\
  seen 80 t = [Put [7]; Ask 3; Put [4; 5; 6]; Ask 2] /\ seen 33 t = [Put [1]; Ask 0].
Proof. eexists. split; [vm_compute; reflexivity|]. split; reflexivity. Qed.
