(** Property C85 (all uses of the Arduino SPI bus). *)
From Verif Require Import Base S_Spi M_SpiArduino L_Spi P_Spi S_SpiUses L_SpiUses.

(** one use *)
Theorem C85_use : forall slave fill u mem log, use_ok (zlen mem) u ->
  exists mem' log', useBus slave fill u (mem, log) = Ok (mem', log') /\ zlen mem' = zlen mem /\
    use_effect slave fill u mem log mem' log'.
Proof. exact use_spec. Qed.
Print Assumptions C85_use.
(** any sequence: the bytes of transfers, and only they, are clocked inside transactions *)
Theorem C85_uses : forall slave fill us mem log, Forall (use_ok (zlen mem)) us -> balanced log ->
  exists mem' log' i o, useBusAll slave fill us (mem, log) = Ok (mem', log') /\
    uses_effect slave fill us mem log mem' log' i o /\ balanced log' /\
    clocked true false log' = clocked true false log ++ i /\ clocked false false log' = clocked false false log ++ o.
Proof. exact uses_spec. Qed.
Print Assumptions C85_uses.
Example C85_case :
  let us := [SendByte 7; Transfer (Some 0) None 2; SendBytes 1 2; Transfer None (Some 0) 1] in
  Forall (use_ok 3) us /\
  useBusAll (fun log b => b + 1) 0 us ([1; 2; 3], []) =
    Ok ([0; 2; 3], [Byte 7 8; Begin; Byte 1 2; Byte 2 3; End; Byte 2 3; Byte 3 4; Begin; Byte 255 0; End]).
Proof. split; [repeat constructor; lia|reflexivity]. Qed.
