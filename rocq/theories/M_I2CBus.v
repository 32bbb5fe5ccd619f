(** Model of esp32-esp-idf/I2CBus.cpp: init and testAddress.

    The log is the sequence of driver calls with what they were given; the answers of the driver are
    arbitrary functions of the log.  The calls that fill a command link answer with codes that the
    code ignores (I2CBus.cpp:13-15), so they have no answers here. *)
From Verif Require Import Base M_I2C.

(** the commands of a link (I2CBus.cpp:13-15) *)
Inductive linkCmd := Start | Byte (b : Z) (checkAck : bool) | Stop.
(** the calls: i2c_cmd_link_create, the three that fill a link, i2c_master_cmd_begin with the link's
    commands, i2c_cmd_link_delete, i2c_param_config, i2c_driver_install *)
Inductive busCall :=
| LinkCreate | LinkAdd (c : linkCmd) | CmdBegin (cmds : list linkCmd) (ticks : Z) | LinkDelete
| ParamConfig (master : bool) (sda scl : Z) (pullSda pullScl : bool) (frequency : Z)
| DriverInstall (master : bool) (rxLen txLen flags : Z).
(** answers: the codes of the last call in the log *)
Record busDriver := mkBusDriver { beginCode : list busCall -> Z; configCode : list busCall -> Z; installCode : list busCall -> Z }.

(** esp32-esp-idf/I2CBus.cpp:10-19; [tick] is portTICK_PERIOD_MS, [address] a uint8_t *)
Definition testAddress (d : busDriver) (tick address : Z) (log : list busCall) : bool * list busCall :=
  let cmds := [Start; Byte (testAddressByte address) true; Stop] in
  let log := log ++ LinkCreate :: map LinkAdd cmds in
  let log := log ++ [CmdBegin cmds (10 / tick)] in
  let ret := beginCode d log in
  let log := log ++ [LinkDelete] in
  (ret =? 0, log).

(** esp32-esp-idf/I2CBus.cpp:21-35; the install call gets conf.mode and three zeros and is made only
    after a successful i2c_param_config (&&) *)
Definition initBus (d : busDriver) (sda scl frequency : Z) (pullSda pullScl : bool) (log : list busCall) : bool * list busCall :=
  let log := log ++ [ParamConfig true sda scl pullSda pullScl (u32 frequency)] in
  if configCode d log =? 0 then
    let log := log ++ [DriverInstall true 0 0 0] in
    (installCode d log =? 0, log)
  else (false, log).
