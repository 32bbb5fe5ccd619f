(** Property C69: set-up, probing and reset of the I2C bus. *)
From Verif Require Import Base M_I2C M_I2CBus S_I2CBus P_Misc.

(** C69: on a bus with devices, probing an address finds out whether a device has it (modulo 128). *)
Theorem C69_probe : forall present d tick address log, on_bus present d -> 0 <= address < 256 ->
  fst (testAddress d tick address log) = present (address mod 128).
Proof.
  intros present d tick address log H Ha. unfold testAddress. cbn [fst map].
  match goal with |- (beginCode d (?l ++ [CmdBegin ?c ?t]) =? 0) = _ => specialize (H l c t) end.
  cbn [succeeds andb negb orb] in H. destruct (C62_probe address Ha) as [E _].
  assert (E2 : testAddressByte address / 2 = address mod 128) by (rewrite E, Z.mul_comm; apply Z.div_mul; lia).
  rewrite E2, andb_true_r in H.
  destruct (present (address mod 128)).
  - apply Z.eqb_eq, H. reflexivity.
  - apply Z.eqb_neq. intros X. apply H in X. discriminate.
Qed.
Print Assumptions C69_probe.

(** whatever the driver answers, the probe uses one command link properly and deletes it *)
Theorem C69_link : forall d tick address log, exists calls,
  snd (testAddress d tick address log) = log ++ calls /\ links None calls = Some None /\
  exists pre post cmds, calls = pre ++ CmdBegin cmds (10 / tick) :: post /\
    (forall c t, ~ In (CmdBegin c t) (pre ++ post)) /\
    fst (testAddress d tick address log) = (beginCode d (log ++ pre ++ [CmdBegin cmds (10 / tick)]) =? 0).
Proof.
  intros d tick address log. eexists. unfold testAddress. cbn [snd map fst].
  split; [rewrite <- !app_assoc; reflexivity|]. split.
  - cbn [app links]. destruct (list_eq_dec _ _ _) as [_|N]; [reflexivity|]. exfalso. apply N. reflexivity.
  - exists [LinkCreate; LinkAdd Start; LinkAdd (Byte (testAddressByte address) true); LinkAdd Stop], [LinkDelete].
    eexists. split; [reflexivity|]. split; [cbn [app In]; intuition discriminate|]. rewrite <- app_assoc. reflexivity.
Qed.
Print Assumptions C69_link.

(** set-up: the driver is installed only after its parameters were accepted, and both must succeed *)
Theorem C69_init : forall d sda scl frequency ps pc log,
  0 <= frequency < 4294967296 ->
  let config := log ++ [ParamConfig true sda scl ps pc frequency] in
  let install := config ++ [DriverInstall true 0 0 0] in
  let r := initBus d sda scl frequency ps pc log in
  (fst r = true <-> configCode d config = 0 /\ installCode d install = 0) /\
  (configCode d config <> 0 -> snd r = config) /\ (configCode d config = 0 -> snd r = install).
Proof.
  intros d sda scl frequency ps pc log Hf. cbv zeta. unfold initBus, u32. rewrite (Z.mod_small frequency) by lia.
  destruct (Z.eqb_spec (configCode d (log ++ [ParamConfig true sda scl ps pc frequency])) 0) as [E|E]; cbn [fst snd].
  - split; [rewrite Z.eqb_eq; tauto|]. split; [congruence|reflexivity].
  - split; [split; [discriminate|tauto]|]. split; [reflexivity|congruence].
Qed.
Print Assumptions C69_init.

(** on both platforms a reset is one general call, on the ESP32 with 200 ticks for it *)
Theorem C69_reset : forall log,
  (exists calls, espResetBus log = log ++ calls /\ transmitted None calls = [general_reset] /\ forall a b ticks, In (WriteTo a b ticks) calls -> ticks = 200) /\
  (exists calls, ardResetBus log = log ++ calls /\ transmitted None calls = [general_reset]).
Proof.
  intros log. split; eexists; (split; [reflexivity|]); [|reflexivity]. split; [reflexivity|]. intros a b ticks [H|[]]. injection H as _ _ <-. reflexivity.
Qed.
Print Assumptions C69_reset.

Example C69_case :
  let present a := (a =? 60) || (a =? 104) in
  let code log := match rev log with CmdBegin c _ :: _ => if succeeds present false c then 0 else -1 | _ => 0 end in
  let d := mkBusDriver code (fun _ => 0) (fun _ => 259) in
  on_bus present d /\ fst (testAddress d 10 60 []) = true /\ fst (testAddress d 10 188 []) = true /\ fst (testAddress d 10 61 []) = false /\
  fst (initBus d 21 22 400000 true true []) = false.
Proof.
  cbv zeta. split; [|repeat split].
  intros log cmds ticks. cbn [beginCode]. rewrite rev_app_distr. cbn [rev app].
  destruct (succeeds _ false cmds); split; (reflexivity || discriminate).
Qed.
