(** Lemmas about sequences of uses of the Arduino SPI bus. *)
From Verif Require Import Base S_Spi M_SpiArduino L_Spi P_Spi S_SpiUses.

Lemma use_spec slave fill u mem log : use_ok (zlen mem) u ->
  exists mem' log', useBus slave fill u (mem, log) = Ok (mem', log') /\ zlen mem' = zlen mem /\
    use_effect slave fill u mem log mem' log'.
Proof.
  unfold use_effect. destruct u as [inp out n|b|i n]; cbn [use_ok useBus opens use_bytes].
  - intros (Hn & Hi & Ho & Hs). destruct inp as [i|], out as [o|].
    + destruct (C50_exchange slave fill i o n mem log) as (rs & A & L & E); try tauto; try lia.
      unfold sendAndReceive in E. rewrite E. cbn [bind]. eexists _, _. split; [reflexivity|]. split; [apply zlen_blit; lia|]. exists rs. auto.
    + destruct (C50_send slave fill i n mem log) as (rs & A & E); try tauto; try lia.
      unfold sendSync in E. rewrite E. cbn [bind]. eexists _, _. split; [reflexivity|]. split; [reflexivity|]. exists rs. auto.
    + destruct (C50_receive slave fill o n mem log) as (rs & A & L & E); try tauto; try lia.
      unfold receiveSync in E. rewrite E. cbn [bind]. eexists _, _. split; [reflexivity|]. split; [apply zlen_blit; lia|]. exists rs. auto.
    + rewrite C50_nothing. cbn [bind]. eexists _, _. split; [reflexivity|]. split; [reflexivity|]. exists []. cbn. auto.
  - intros _. cbn [sendByte transferByte]. eexists _, _. split; [reflexivity|]. split; [reflexivity|]. rewrite app_nil_r. exists [u8 (slave log b)].
    split; [split; [reflexivity|exact I]|]. split; reflexivity.
  - intros (Hi & Hn & Hm). unfold sendBytes. rewrite rd_slice_ok by lia. cbn [bind].
    destruct (exchange_spec slave (slice mem i n) log) as (rs & E & A). rewrite E. eexists _, _. split; [reflexivity|]. split; [reflexivity|].
    rewrite app_nil_r. exists rs. split; [exact A|]. split; [rewrite app_nil_r; reflexivity|reflexivity].
Qed.

Lemma events_exchanges sent : forall rs, Forall is_exchange (events Byte sent rs).
Proof. induction sent as [|b sent IH]; intros [|r rs]; try constructor; [exact I|apply IH]. Qed.
Lemma balanced_bytes bytes : forall l, balanced l -> Forall is_exchange bytes -> balanced (l ++ bytes).
Proof.
  induction bytes as [|e bytes IH]; intros l H F; [rewrite app_nil_r; exact H|]. inversion_clear F as [|? ? F1 F2]. destruct e as [|b r|]; try contradiction.
  change (Byte b r :: bytes) with ([Byte b r] ++ bytes). rewrite app_assoc. apply IH; [apply balanced_byte; exact H|exact F2].
Qed.
Lemma clocked_exchanges inside now bytes l : Forall is_exchange bytes ->
  clocked inside now (bytes ++ l) = clocked inside now bytes ++ clocked inside now l.
Proof.
  induction 1 as [|e bytes He Hb IH]; [reflexivity|]. destruct e as [|b r|]; try contradiction. cbn [app clocked]. rewrite IH, app_assoc. reflexivity.
Qed.
(** after a balanced history no transaction is open *)
Lemma clocked_balanced inside l : balanced l -> forall l2, clocked inside false (l ++ l2) = clocked inside false l ++ clocked inside false l2.
Proof.
  induction 1 as [|l b r H IH|l bytes H IH F]; intros l2; [reflexivity| |].
  - rewrite <- app_assoc, !IH. cbn [app clocked]. rewrite app_nil_r, app_assoc. reflexivity.
  - rewrite <- !app_assoc, !IH. cbn [app clocked]. rewrite !clocked_exchanges by exact F. cbn [app clocked]. rewrite app_nil_r, !app_assoc. reflexivity.
Qed.
Lemma clocked_events inside now sent : forall rs, length sent = length rs ->
  clocked inside now (events Byte sent rs) = if Bool.eqb inside now then sent else [].
Proof.
  induction sent as [|b sent IH]; intros [|r rs] H; try discriminate; [destruct (Bool.eqb inside now); reflexivity|].
  rewrite events_cons. cbn [clocked]. rewrite IH by (injection H; auto). destruct (Bool.eqb inside now); reflexivity.
Qed.
Lemma effect_balanced slave fill u mem log mem' log' : use_effect slave fill u mem log mem' log' -> balanced log ->
  balanced log' /\
  clocked true false log' = clocked true false log ++ (if opens u then use_bytes fill mem u else []) /\
  clocked false false log' = clocked false false log ++ (if opens u then [] else use_bytes fill mem u).
Proof.
  intros (rs & A & -> & _) Hb. pose proof (answers_len_nat _ _ _ _ _ A) as L. pose proof (events_exchanges (use_bytes fill mem u) rs) as F.
  destruct (opens u).
  - split; [apply balanced_transaction; assumption|].
    split; rewrite clocked_balanced by exact Hb; cbn [app clocked]; rewrite clocked_exchanges, clocked_events by assumption; cbn [Bool.eqb clocked];
      rewrite ?app_nil_r; reflexivity.
  - cbn [app]. rewrite app_nil_r. split; [apply balanced_bytes; assumption|].
    split; rewrite clocked_balanced by exact Hb; rewrite clocked_events by exact L; reflexivity.
Qed.
Lemma uses_spec slave fill us : forall mem log, Forall (use_ok (zlen mem)) us -> balanced log ->
  exists mem' log' i o, useBusAll slave fill us (mem, log) = Ok (mem', log') /\
    uses_effect slave fill us mem log mem' log' i o /\ balanced log' /\
    clocked true false log' = clocked true false log ++ i /\ clocked false false log' = clocked false false log ++ o.
Proof.
  induction us as [|u us IH]; intros mem log Hu Hb.
  - exists mem, log, [], []. split; [reflexivity|]. split; [constructor|]. rewrite !app_nil_r. auto.
  - inversion_clear Hu as [|? ? H1 H2]. destruct (use_spec slave fill u mem log H1) as (mem1 & log1 & E & Hl & Hf).
    destruct (effect_balanced _ _ _ _ _ _ _ Hf Hb) as (Hb1 & C1 & C2).
    destruct (IH mem1 log1 ltac:(rewrite Hl; exact H2) Hb1) as (mem' & log' & i & o & E' & Hu' & Hb' & C3 & C4).
    exists mem', log', ((if opens u then use_bytes fill mem u else []) ++ i), ((if opens u then [] else use_bytes fill mem u) ++ o).
    split; [cbn [useBusAll]; rewrite E; exact E'|]. split; [econstructor; eassumption|]. split; [exact Hb'|].
    rewrite C3, C4, C1, C2, !app_assoc. auto.
Qed.
