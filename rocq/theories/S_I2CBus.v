(** What a two-wire bus with some devices answers, and what a use of command links must look like. *)
From Verif Require Import Base M_I2C M_I2CBus.

(** A transaction on a bus with devices at the 7-bit addresses [present]: the byte after a start is an
    address byte and is acknowledged if its upper seven bits are a device's address; a checked byte
    that is not acknowledged ends the transaction with a failure.  Later bytes are for the addressed
    device; they are taken to be acknowledged. *)
Fixpoint succeeds (present : Z -> bool) (afterStart : bool) (cmds : list linkCmd) : bool :=
  match cmds with
  | [] => true
  | Start :: r => succeeds present true r
  | Byte b ack :: r => (negb (afterStart && ack) || present (b / 2)) && succeeds present false r
  | Stop :: r => succeeds present false r
  end.
(** the driver executes links on this bus *)
Definition on_bus (present : Z -> bool) (d : busDriver) : Prop :=
  forall log cmds ticks, beginCode d (log ++ [CmdBegin cmds ticks]) = 0 <-> succeeds present false cmds = true.

(** command links: none is added to, run or deleted unless it exists, a run link holds what was added,
    and the link left at the end, if any *)
Fixpoint links (open : option (list linkCmd)) (calls : list busCall) : option (option (list linkCmd)) :=
  match calls with
  | [] => Some open
  | LinkCreate :: r => match open with None => links (Some []) r | Some _ => None end
  | LinkAdd c :: r => match open with Some l => links (Some (l ++ [c])) r | None => None end
  | CmdBegin cmds _ :: r =>
      match open with
      | Some l => if list_eq_dec (fun a b : linkCmd => ltac:(decide equality; apply Bool.bool_dec || apply Z.eq_dec)) l cmds
                  then links open r else None
      | None => None
      end
  | LinkDelete :: r => match open with Some _ => links None r | None => None end
  | _ :: r => links open r
  end.

(** what reaches the bus: address and bytes of every transmission that ended with a stop condition, for
    both drivers *)
Fixpoint transmitted (cur : option (Z * list Z)) (calls : list i2cCall) : list (Z * list Z) :=
  match calls with
  | [] => []
  | BeginTransmission a :: r => transmitted (Some (a, [])) r
  | WriteBytes d :: r => transmitted (match cur with Some (a, x) => Some (a, x ++ d) | None => None end) r
  | EndTransmission true :: r => match cur with Some t => t :: transmitted None r | None => transmitted None r end
  | EndTransmission false :: r => transmitted None r
  | WriteTo a d _ :: r => (a, d) :: transmitted cur r
  | _ :: r => transmitted cur r
  end.
(** the general call with the command "reset" of the I2C specification *)
Definition general_reset : Z * list Z := (0, [6]).
