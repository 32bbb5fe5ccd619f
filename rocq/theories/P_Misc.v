(** Properties C53-C56, C60-C62 (pins, I2C, analog pins, delays and sleeps, driver set-up). *)
From Verif Require Import Base S_Uart S_Misc M_Gpio M_I2C M_Analog M_Delays M_UartInit L_Misc.

(** C53: ChipSelector. *)
(** a block with a selector: low from the beginning, whatever else the block does with other pins, and
    high at the end *)
Theorem C53_scope : forall p body log, leaves_alone p body ->
  exists inner, runProg (Scope p body Done) log = log ++ [(p, false)] ++ inner ++ [(p, true)] /\
    runProg body (log ++ [(p, false)]) = log ++ [(p, false)] ++ inner /\
    (forall k, last_level p (log ++ [(p, false)] ++ firstn k inner) = Some false) /\
    last_level p (runProg (Scope p body Done) log) = Some true.
Proof.
  intros p body log H. exists (trace body). assert (E : runProg (Scope p body Done) log = log ++ [(p, false)] ++ trace body ++ [(p, true)]) by (rewrite run_trace; cbn [trace app]; rewrite app_nil_r; reflexivity).
  split; [exact E|]. split; [rewrite run_trace, <- app_assoc; reflexivity|]. split.
  - intros k. rewrite !last_level_app. assert (N : last_level p (firstn k (trace body)) = None).
    { apply last_level_none. intros l Hl. apply (trace_alone p body H l). rewrite <- (firstn_skipn k (trace body)). apply in_or_app. left. exact Hl. }
    rewrite N. cbn [last_level]. rewrite Z.eqb_refl. reflexivity.
  - rewrite E, !last_level_app. cbn [last_level]. rewrite Z.eqb_refl. reflexivity.
Qed.
Print Assumptions C53_scope.
(** after any block the pin of its selector is high until something else drives it, however blocks are
    nested; in particular an inner block on the same pin ends the selection of the outer one *)
Theorem C53_after : forall p body rest log, leaves_alone p rest -> last_level p (runProg (Scope p body rest) log) = Some true.
Proof.
  intros p body rest log H. rewrite run_trace. cbn [trace]. rewrite !last_level_app.
  assert (N : last_level p (trace rest) = None) by (apply last_level_none; apply trace_alone; exact H). rewrite N. cbn [last_level]. rewrite last_level_app. cbn [last_level]. rewrite Z.eqb_refl. reflexivity.
Qed.
Print Assumptions C53_after.
Theorem C53_nested_refuted : exists p body inner log,
  runProg (Scope p body Done) log = log ++ [(p, false)] ++ inner ++ [(p, true)] /\
  exists k, last_level p (log ++ [(p, false)] ++ firstn k inner) = Some true.
Proof. exists 5, (Scope 5 Done (SetLevel 6 true Done)), [(5, false); (5, true); (6, true)], []. split; [reflexivity|]. exists 3%nat. reflexivity. Qed.
Print Assumptions C53_nested_refuted.
Theorem C53_level : forall p level log, last_level p (pinSetLevel p level log) = Some level /\
  (forall q, q <> p -> last_level q (pinSetLevel p level log) = last_level q log).
Proof.
  intros p level log. assert (E : pinSetLevel p level log = log ++ [(p, level)]) by (destruct level; reflexivity). rewrite E. split.
  - rewrite last_level_app. cbn [last_level]. rewrite Z.eqb_refl. reflexivity.
  - intros q Hq. rewrite last_level_app. cbn [last_level]. replace (p =? q) with false by lia. reflexivity.
Qed.
Print Assumptions C53_level.
Theorem C53_check : forall readPin p level log c, reads_back readPin -> leaves_alone p c ->
  pinCheck readPin p (runProg c (pinSetLevel p level log)) = level.
Proof.
  intros readPin p level log c H Hc. assert (L : last_level p (runProg c (pinSetLevel p level log)) = Some level).
  { rewrite run_trace, last_level_app. assert (N : last_level p (trace c) = None) by (apply last_level_none; apply trace_alone; exact Hc). rewrite N. apply C53_level. }
  specialize (H _ p level L). unfold pinCheck. destruct (Z.eqb_spec (readPin (runProg c (pinSetLevel p level log)) p) 0) as [E|E]; cbn [negb].
  - destruct level; [|reflexivity]. exfalso. apply (proj2 H eq_refl). exact E.
  - symmetry. apply H. exact E.
Qed.
Print Assumptions C53_check.
Example C53_case : runProg (Scope 4 (SetLevel 7 true (SetLevel 7 false Done)) (Scope 4 Done Done)) [(4, true)]
  = [(4, true); (4, false); (7, true); (7, false); (4, true); (4, false); (4, true)] /\ leaves_alone 4 (SetLevel 7 true (SetLevel 7 false Done)).
Proof. split; [reflexivity|]. cbn. repeat split; discriminate. Qed.

(** C54: I2C. *)
Theorem C54_send : forall w a mem data count log, 0 <= data -> 0 <= count -> data + count <= zlen mem ->
  let started := log ++ [BeginTransmission a; WriteBytes (slice mem data count)] in
  exists ok, ardSendSync w a mem data count log = Ok (ok, started ++ [EndTransmission true]) /\
    (ok = true <-> queued w started = count /\ endCode w (started ++ [EndTransmission true]) = 0).
Proof.
  intros w a mem data count log Hd Hc Hm started. unfold ardSendSync. rewrite rd_slice_ok by lia. cbn [bind].
  assert (E : (log ++ [BeginTransmission a]) ++ [WriteBytes (slice mem data count)] = started) by (subst started; rewrite <- app_assoc; reflexivity). rewrite E.
  eexists. split; [reflexivity|]. rewrite andb_true_iff, !Z.eqb_eq. tauto.
Qed.
Print Assumptions C54_send.
(** all or nothing *)
Theorem C54_receive : forall w a mem data count log, 0 <= data -> 0 <= count -> data + count <= zlen mem ->
  let asked := log ++ [RequestFrom a count] in
  (requested w asked = count /\ exists got, zlen got = count /\
     (forall i, 0 <= i < count -> nthZ got i = readValue w (asked ++ repeat ReadByte (S (Z.to_nat i))) mod 256) /\
     ardReceiveSync w a mem data count log = Ok (true, blit mem data got, asked ++ repeat ReadByte (Z.to_nat count))) \/
  (requested w asked <> count /\ ardReceiveSync w a mem data count log = Ok (false, mem, asked)).
Proof.
  intros w a mem data count log Hd Hc Hm asked. unfold ardReceiveSync. fold asked. destruct (Z.eqb_spec (requested w asked) count) as [H|H]; cbn [negb]; [left|right].
  - split; [exact H|]. exists (wireBytes w (Z.to_nat count) asked). split; [rewrite wireBytes_len; lia|]. split.
    + intros i Hi. unfold nthZ. rewrite wireBytes_nth by lia. reflexivity.
    + rewrite ard_read_loop by lia. cbn [bind]. rewrite Z.add_0_r. reflexivity.
  - split; [exact H|reflexivity].
Qed.
Print Assumptions C54_receive.
(** a requestFrom that reports 8-bit counts makes every longer request fail *)
Theorem C54_long_request : forall w a mem data count log, (forall l, 0 <= requested w l < 256) -> 256 <= count ->
  ardReceiveSync w a mem data count log = Ok (false, mem, log ++ [RequestFrom a count]).
Proof.
  intros w a mem data count log H Hc. unfold ardReceiveSync. specialize (H (log ++ [RequestFrom a count])). replace (requested w (log ++ [RequestFrom a count]) =? count) with false by lia. reflexivity.
Qed.
Print Assumptions C54_long_request.
Theorem C54_both : forall w a mem tx txn rx rxn log, 0 <= tx -> 0 <= txn -> tx + txn <= zlen mem ->
  exists sent log1, ardSendSync w a mem tx txn log = Ok (sent, log1) /\
    (sent = false -> ardSendThenReceive w a mem tx txn rx rxn log = Ok (false, mem, log1)) /\
    (sent = true -> ardSendThenReceive w a mem tx txn rx rxn log = ardReceiveSync w a mem rx rxn log1).
Proof.
  intros w a mem tx txn rx rxn log H1 H2 H3. destruct (C54_send w a mem tx txn log H1 H2 H3) as [ok [E _]]. exists ok. eexists. split; [exact E|].
  unfold ardSendThenReceive. rewrite E. cbn [bind]. split; intros ->; reflexivity.
Qed.
Print Assumptions C54_both.
(** ESP32: one driver call per phase, result by its code; the receive call is made iff the send call
    reported success *)
Theorem C54_esp : forall d tick a timeout mem tx txn rx rxn log, 0 <= tx -> 0 <= txn -> tx + txn <= zlen mem -> 0 <= rx -> 0 <= rxn -> rx + rxn <= zlen mem ->
  (forall l, zlen (snd (readAnswer d l)) <= rxn) ->
  let log1 := log ++ [WriteTo (a mod 256) (slice mem tx txn) (timeout / tick)] in
  let log2 := log1 ++ [ReadFrom (a mod 256) rxn (timeout / tick)] in
  espSendThenReceive d tick a timeout mem tx txn rx rxn log =
    Ok (if writeCode d log1 =? 0 then (fst (readAnswer d log2) =? 0, blit mem rx (snd (readAnswer d log2)), log2) else (false, mem, log1)).
Proof.
  intros d tick a timeout mem tx txn rx rxn log H1 H2 H3 H4 H5 H6 Hd log1 log2. unfold espSendThenReceive, espSendSync, u8. rewrite rd_slice_ok by lia. cbn [bind]. fold log1.
  destruct (writeCode d log1 =? 0); [|reflexivity]. unfold espReceiveSync, u8. fold log2. specialize (Hd log2). destruct (readAnswer d log2) as [code bs]. cbn [fst snd] in *.
  rewrite wr_slice_ok by lia. reflexivity.
Qed.
Print Assumptions C54_esp.
Example C54_case :
  let w := mkWire (fun _ => 2) (fun _ => 0) (fun _ => 3) (fun log => 600 + Z.of_nat (length log)) in
  ardSendThenReceive w 60 [1; 2; 0; 0; 0] 0 2 2 3 [] =
    Ok (true, [1; 2; 93; 94; 95], [BeginTransmission 60; WriteBytes [1; 2]; EndTransmission true; RequestFrom 60 3; ReadByte; ReadByte; ReadByte]).
Proof. reflexivity. Qed.
Example C54_case_esp :
  let d := mkEspI2C (fun _ => 0) (fun log => (0, [7; 8; 9])) in
  espSendThenReceive d 10 316 205 [1; 2; 0; 0; 0] 0 2 2 3 [] = Ok (true, [1; 2; 7; 8; 9], [WriteTo 60 [1; 2] 20; ReadFrom 60 3 20]).
Proof. reflexivity. Qed.

(** C55: analog pins. *)
Theorem C55_mapping : forall pinCount map pin,
  match digitalPinToAnalogChannel pinCount map pin with
  | Some (u, c) => pin < pinCount /\ first_place map pin u c
  | None => pin < pinCount -> forall row, In row map -> ~ In pin row
  end.
Proof.
  intros pinCount map pin. unfold digitalPinToAnalogChannel. destruct (Z.ltb_spec pin pinCount) as [H|H]; [|intros K; lia].
  pose proof (find_unit map pin 0) as F. destruct (findUnit map pin 0) as [[u c]|]; [|intros _; exact F]. rewrite Z.sub_0_r in F.
  split; [exact H|]. destruct F as [A [B [C [D E]]]]. unfold first_place. split; [exact A|]. split; [exact B|]. split; [exact C|]. split; assumption.
Qed.
Print Assumptions C55_mapping.
(** one reading: the calls made and the result; -1 unless all calls succeeded; the unit is never given
    back *)
Theorem C55_read : forall d pinCount map pin log,
  match digitalPinToAnalogChannel pinCount map pin with
  | Some (u, c) => if u <? 2 then
      let l1 := log ++ [NewUnit u] in let l2 := l1 ++ [ConfigChannel u c] in let l3 := l2 ++ [ReadChannel u c] in
      singleRead d pinCount map pin log =
        (if adcOk d l1 then if adcOk d l2 then if adcOk d l3 then (adcValue d l3, l3) else (-1, l3) else (-1, l2) else (-1, l1))
      else singleRead d pinCount map pin log = (-1, log)
  | None => singleRead d pinCount map pin log = (-1, log)
  end.
Proof.
  intros d pinCount map pin log. pose proof (C55_mapping pinCount map pin) as F. unfold singleRead.
  destruct (digitalPinToAnalogChannel pinCount map pin) as [[u c]|]; [|reflexivity]. destruct F as [_ [Hu _]].
  destruct (Z.ltb_spec u 2) as [H|H].
  - assert (E : (if u =? 0 then singleReadADC d 0 c log else if u =? 1 then singleReadADC d 1 c log else (-1, log)) = singleReadADC d u c log).
    { destruct (Z.eqb_spec u 0) as [->|H0]; [reflexivity|]. replace (u =? 1) with true by lia. replace u with 1 by lia. reflexivity. }
    rewrite E. unfold singleReadADC. destruct (adcOk d (log ++ [NewUnit u])); [|reflexivity]. destruct (adcOk d ((log ++ [NewUnit u]) ++ [ConfigChannel u c])); [|reflexivity].
    destruct (adcOk d (((log ++ [NewUnit u]) ++ [ConfigChannel u c]) ++ [ReadChannel u c])); reflexivity.
  - replace (u =? 0) with false by lia. replace (u =? 1) with false by lia. reflexivity.
Qed.
Print Assumptions C55_read.
Theorem C55_never_released : forall d pinCount map pins log, exists more,
  snd (readAll d pinCount map pins log) = log ++ more /\ forall u, ~ In (DelUnit u) more.
Proof.
  intros d pinCount map pins. induction pins as [|p pins IH]; intros log; [exists []; split; [rewrite app_nil_r; reflexivity|intros u []]|].
  cbn [readAll]. assert (S1 : exists m1, snd (singleRead d pinCount map p log) = log ++ m1 /\ forall u, ~ In (DelUnit u) m1).
  { pose proof (C55_read d pinCount map p log) as R. destruct (digitalPinToAnalogChannel pinCount map p) as [[u c]|].
    - destruct (u <? 2).
      + cbv zeta in R. rewrite R. destruct (adcOk d (log ++ [NewUnit u])); [destruct (adcOk d ((log ++ [NewUnit u]) ++ [ConfigChannel u c])); [destruct (adcOk d (((log ++ [NewUnit u]) ++ [ConfigChannel u c]) ++ [ReadChannel u c]))|]|]; cbn [snd];
          rewrite <- ?app_assoc; eexists; (split; [reflexivity|]); cbn; intros v H; repeat (destruct H as [H|H]; [discriminate|]); exact H.
      + rewrite R. exists []. split; [rewrite app_nil_r; reflexivity|intros v []].
    - rewrite R. exists []. split; [rewrite app_nil_r; reflexivity|intros v []]. }
  destruct S1 as [m1 [E1 N1]]. destruct (singleRead d pinCount map p log) as [v log1] eqn:E. cbn [snd] in E1. subst log1. destruct (IH (log ++ m1)) as [m2 [E2 N2]].
  destruct (readAll d pinCount map pins (log ++ m1)) as [vs log2]. cbn [snd] in *. subst log2. exists (m1 ++ m2). split; [rewrite app_assoc; reflexivity|].
  intros u H. apply in_app_or in H. destruct H as [H|H]; [exact (N1 u H)|exact (N2 u H)].
Qed.
Print Assumptions C55_never_released.
(** with a driver that refuses a unit still in use, once a unit was taken every later reading of its
    pins gives -1 *)
Theorem C55_second_read_fails : forall d pinCount map pin u c log before after,
  digitalPinToAnalogChannel pinCount map pin = Some (u, c) -> log = before ++ [NewUnit u] ++ after -> adcOk d (before ++ [NewUnit u]) = true ->
  ~ In (DelUnit u) after ->
  (forall a b v, adcOk d (a ++ [NewUnit v]) = true -> ~ In (DelUnit v) b -> adcOk d ((a ++ [NewUnit v]) ++ b ++ [NewUnit v]) = false) ->
  fst (singleRead d pinCount map pin log) = -1.
Proof.
  intros d pinCount map pin u c log before after E -> H1 H2 H3. pose proof (C55_read d pinCount map pin (before ++ [NewUnit u] ++ after)) as R. rewrite E in R.
  destruct (u <? 2); [|rewrite R; reflexivity]. cbv zeta in R. rewrite R. specialize (H3 before after u H1 H2).
  replace ((before ++ [NewUnit u] ++ after) ++ [NewUnit u]) with ((before ++ [NewUnit u]) ++ after ++ [NewUnit u]) by (rewrite <- !app_assoc; reflexivity). rewrite H3. reflexivity.
Qed.
Print Assumptions C55_second_read_fails.
(** a driver with exclusive units: the second of two readings fails *)
Example C55_case :
  let count u log := length (filter (fun c => match c with NewUnit v => v =? u | _ => false end) log) in
  let d := mkAdc (fun log => match last log (DelUnit 0) with NewUnit u => Nat.leb (count u log) 1 | _ => true end) (fun _ => 1234) in
  readAll d 40 [[36; 37; 38]; [4; 0; 2]] [0; 0; 37] [] =
    ([1234; -1; 1234], [NewUnit 1; ConfigChannel 1 1; ReadChannel 1 1; NewUnit 1; NewUnit 0; ConfigChannel 0 1; ReadChannel 0 1]) /\
  first_place [[36; 37; 38]; [4; 0; 2]] 0 1 1.
Proof.
  split; [reflexivity|]. pose proof (C55_mapping 40 [[36; 37; 38]; [4; 0; 2]] 0) as M. cbn in M. exact (proj2 M).
Qed.

(** C56: delays and sleeps. *)
Theorem C56_delay : forall tick ms, 0 < tick -> 0 <= ms ->
  ms - tick < tick * delayTicksOf tick ms <= ms /\ (tick * delayTicksOf tick ms = ms <-> (tick | ms)).
Proof.
  intros tick ms Ht Hm. unfold delayTicksOf. pose proof (Z.mul_div_le ms tick Ht) as A. pose proof (Z.mul_succ_div_gt ms tick Ht) as B. split; [nia|].
  split; [intros E; exists (ms / tick); lia|]. intros [k ->]. rewrite Z.div_mul by lia. lia.
Qed.
Print Assumptions C56_delay.
Theorem C56_deep : forall ms, 0 <= ms < 4294967296 -> deepSleep ms = [Wakeup (1000 * ms); DeepSleep].
Proof. intros ms H. unfold deepSleep, u64. rewrite Z.mod_small by lia. rewrite Z.mul_comm. reflexivity. Qed.
Print Assumptions C56_deep.
(** light sleep in full: rounds as long as the reading at their beginning is before the deadline *)
Theorem C56_light : forall fuel ticks sleeps tick ms,
  let wait := deadline ticks ms in let at_round k := ticks (round_start sleeps 1 0 k) in
  (lightSleep fuel ticks sleeps tick ms = Fuel /\ forall k, (k < fuel)%nat -> at_round k < wait) \/
  exists K, (K < fuel)%nat /\ (forall k, (k < K)%nat -> at_round k < wait) /\ wait <= at_round K /\
    lightSleep fuel ticks sleeps tick ms =
      Ok (S (round_start sleeps 1 0 K), concat (map (fun k => round_calls ticks sleeps tick wait (round_start sleeps 1 0 k) k) (seq 0 K))).
Proof.
  intros fuel ticks sleeps tick ms wait at_round. unfold lightSleep. change (u32 (ticks O + ms)) with wait.
  destruct (light_loop ticks sleeps tick wait fuel 1 0 []) as [[A B]|[K [A [B [C D]]]]]; [left; split; assumption|right; exists K; split; [exact A|]; split; [exact B|]; split; [exact C|exact D]].
Qed.
Print Assumptions C56_light.
(** not early, as long as the counter does not wrap *)
Theorem C56_light_not_early : forall fuel ticks sleeps tick ms n log,
  clock ticks -> 0 <= ms -> ticks O + ms < 4294967296 -> lightSleep fuel ticks sleeps tick ms = Ok (n, log) -> ticks O + ms <= last_reading ticks n.
Proof.
  intros fuel ticks sleeps tick ms n log Hc Hm Hw E. destruct (C56_light fuel ticks sleeps tick ms) as [[A _]|[K [_ [_ [B A]]]]]; [congruence|]. rewrite E in A. apply Ok_inj in A. injection A as -> _.
  unfold last_reading. cbn [pred]. unfold deadline in B. pose proof (Hc O). rewrite Z.mod_small in B by lia. exact B.
Qed.
Print Assumptions C56_light_not_early.
(** the interval programmed when [rest] ms are left (negative: the deadline passed since the check) *)
Theorem C56_wakeup : forall ticks sleeps tick wait s n, clock ticks -> 0 <= wait < 4294967296 ->
  let rest := wait - ticks (S s) in
  exists us more, round_calls ticks sleeps tick wait s n = Wakeup us :: LightSleep :: more /\
    (us = 1000 * rest <-> 0 <= rest < 4294968) /\ (-4294967 <= rest < 0 -> us = 4294967296 - 1000 * - rest).
Proof.
  intros ticks sleeps tick wait s n Hc Hw rest. unfold round_calls. fold rest. eexists _, _. split; [reflexivity|]. split.
  - split; [intros E; pose proof (Z.mod_pos_bound (1000 * rest) 4294967296 ltac:(lia)); lia|]. intros H. apply Z.mod_small. lia.
  - intros H. replace (1000 * rest) with (4294967296 + 1000 * rest + (-1) * 4294967296) by lia. rewrite Z.mod_add by lia. rewrite Z.mod_small by lia. lia.
Qed.
Print Assumptions C56_wakeup.
(** so when the clock steps over the deadline between the check and the programming, light sleep can be
    asked to last more than 71 minutes: here 5 ms were asked for *)
Theorem C56_oversleep_refuted : exists ticks sleeps tick,
  clock ticks /\ (forall n, ticks n <= ticks (S n)) /\ ticks O + 5 < 4294967296 /\
  lightSleep 5 ticks sleeps tick 5 = Ok (4%nat, [Wakeup 4294966296; LightSleep]).
Proof.
  exists (fun n => match n with O => 1000 | S O => 1004 | _ => 1006 end), (fun _ => true), 1. split; [intros [|[|n]]; lia|]. split; [intros [|[|n]]; lia|]. split; [lia|reflexivity].
Qed.
Print Assumptions C56_oversleep_refuted.
(** busy waiting: returns at the first reading not before start + us, never without one *)
Theorem C56_microseconds : forall fuel ticks us, (forall n, 0 <= ticks n < 18446744073709551616) -> 0 < us -> ticks O + us < 18446744073709551616 ->
  (delayMicroseconds fuel ticks us = Fuel /\ forall i, (1 <= i < 1 + fuel)%nat -> ticks i < ticks O + us) \/
  exists k, (1 <= k < 1 + fuel)%nat /\ delayMicroseconds fuel ticks us = Ok (S k) /\ (forall i, (1 <= i < k)%nat -> ticks i < ticks O + us) /\ ticks O + us <= ticks k.
Proof.
  intros fuel ticks us Hc Hu Hw. unfold delayMicroseconds. replace (us =? 0) with false by lia. pose proof (Hc O) as H0.
  assert (EU : forall n, u64 (ticks n) = ticks n) by (intros n; unfold u64; apply Z.mod_small; apply Hc). rewrite EU.
  assert (EE : u64 (ticks O + us) = ticks O + us) by (unfold u64; apply Z.mod_small; lia). rewrite EE. replace (ticks O + us <? ticks O) with false by lia. cbn [bind].
  destruct (spin_spec ticks (fun t => t <? ticks O + us) fuel 1) as [[A B]|[k [K [A [B C]]]]].
  - left. split; [exact A|]. intros i Hi. specialize (B (i - 1)%nat ltac:(lia)). cbv beta in B. rewrite EU in B. replace (1 + (i - 1))%nat with i in B by lia. lia.
  - right. exists (1 + k)%nat. split; [lia|]. split; [rewrite A; apply (f_equal (fun n => Ok n)); lia|]. cbv beta in C. rewrite EU in C. split; [|lia].
    intros i Hi. specialize (B (i - 1)%nat ltac:(lia)). cbv beta in B. rewrite EU in B. replace (1 + (i - 1))%nat with i in B by lia. lia.
Qed.
Print Assumptions C56_microseconds.
(** ... also when the counter wraps around meanwhile, provided it is read once between the wrap-around and
    the end of the delay; otherwise it waits for the next wrap-around *)
Theorem C56_microseconds_wrap : forall (time : nat -> Z) us, let W := 18446744073709551616 in
  (forall i j, (i <= j)%nat -> time i <= time j) -> (forall i, 0 <= time i < W + W) -> time O < W <= time O + us -> 0 < us < 4294967296 ->
  (forall fuel n, delayMicroseconds fuel time us = Ok n ->
     exists k, n = S k /\ time O + us <= time k /\ forall i, (i < k)%nat -> time i <= time O + us) /\
  (forall k m, W <= time k <= time O + us -> (k < m)%nat -> time O + us <= time m -> exists fuel n, delayMicroseconds fuel time us = Ok n) /\
  ((forall k, ~ W <= time k <= time O + us) -> forall fuel, delayMicroseconds fuel time us = Fuel).
Proof.
  intros time us W Mono Hb H0 Hu. assert (U : forall i, u64 (time i) = if time i <? W then time i else time i - W).
  { intros i. unfold u64. fold W. specialize (Hb i). destruct (Z.ltb_spec (time i) W); [apply Z.mod_small; lia|].
    replace (time i) with (time i - W + 1 * W) at 1 by ring. rewrite Z.mod_add by (unfold W; lia). apply Z.mod_small. lia. }
  set (e := time O + us - W) in *. pose proof (Hb O) as HbO.
  assert (EQ : forall fuel, delayMicroseconds fuel time us = do nt <- spin fuel time (fun t => e <? t) 1; spin fuel time (fun t => t <? e) nt).
  { intros fuel. unfold delayMicroseconds. replace (us =? 0) with false by lia. rewrite U. replace (time O <? W) with true by lia. cbv zeta.
    assert (E : u64 (time O + us) = e). { unfold u64. fold W. replace (time O + us) with (e + 1 * W) by (unfold e; ring). rewrite Z.mod_add by (unfold W; lia). apply Z.mod_small. unfold e, W in *. lia. }
    rewrite E. replace (e <? time O) with true by (unfold e, W in *; lia). reflexivity. }
  assert (AG : forall i, (e <? u64 (time i)) = false <-> W <= time i <= time O + us).
  { intros i. rewrite U. pose proof (Mono O i ltac:(lia)). unfold e in *. destruct (Z.ltb_spec (time i) W); split; intros; unfold W in *; lia. }
  split; [|split].
  - intros fuel n. rewrite EQ. destruct (spin_spec time (fun t => e <? t) fuel 1) as [[A _]|(k & Hk & A & B & C)]; rewrite A; cbn [bind]; [discriminate|].
    apply AG in C. destruct (spin_spec time (fun t => t <? e) fuel (1 + k + 1)) as [[A2 _]|(k2 & Hk2 & A2 & B2 & C2)]; rewrite A2; [discriminate|].
    intros E. apply Ok_inj in E. exists (1 + k + 1 + k2)%nat. split; [lia|].
    pose proof (Mono (1 + k)%nat (1 + k + 1 + k2)%nat ltac:(lia)). cbv beta in C2. rewrite U in C2. split; [destruct (Z.ltb_spec (time (1 + k + 1 + k2)%nat) W); unfold e in *; lia|].
    intros i Hi. destruct (le_gt_dec i (1 + k)) as [L|L]; [pose proof (Mono i (1 + k)%nat L); lia|].
    specialize (B2 (i - (1 + k + 1))%nat ltac:(lia)). cbv beta in B2. replace (1 + k + 1 + (i - (1 + k + 1)))%nat with i in B2 by lia. rewrite U in B2.
    pose proof (Mono (1 + k)%nat i ltac:(lia)). destruct (Z.ltb_spec (time i) W); unfold e in *; lia.
  - intros k m Hk Hkm Hm. exists (S m). rewrite EQ.
    destruct (spin_spec time (fun t => e <? t) (S m) 1) as [[_ A]|(k1 & Hk1 & A & B & C)].
    { exfalso. assert (k <> O) by (intros ->; lia). specialize (A (k - 1)%nat ltac:(lia)). cbv beta in A. replace (1 + (k - 1))%nat with k in A by lia. apply AG in Hk. congruence. }
    rewrite A. cbn [bind]. destruct (spin_spec time (fun t => t <? e) (S m) (1 + k1 + 1)) as [[_ A2]|(k2 & Hk2 & A2 & _)]; [|rewrite A2; eauto].
    exfalso. assert (k <> O) by (intros ->; lia). assert (L : (1 + k1 <= k)%nat).
    { destruct (le_gt_dec (1 + k1) k) as [L|L]; [exact L|exfalso]. specialize (B (k - 1)%nat ltac:(lia)). cbv beta in B. replace (1 + (k - 1))%nat with k in B by lia. apply AG in Hk. congruence. }
    specialize (A2 (m - (1 + k1 + 1))%nat ltac:(lia)). cbv beta in A2. replace (1 + k1 + 1 + (m - (1 + k1 + 1)))%nat with m in A2 by lia. rewrite U in A2.
    destruct (Z.ltb_spec (time m) W); unfold e in *; lia.
  - intros HN fuel. rewrite EQ. destruct (spin_spec time (fun t => e <? t) fuel 1) as [[A _]|(k & Hk & A & B & C)]; rewrite A; [reflexivity|]. apply AG in C. exfalso. apply (HN _ C).
Qed.
Print Assumptions C56_microseconds_wrap.
(** two readings before, one between and one after: four in all *)
Example C56_wrap_case :
  let W := 18446744073709551616 in let time n := W - 3 + 2 * Z.of_nat n in
  W <= time 2%nat <= time O + 5 /\ delayMicroseconds 9 time 5 = Ok 4%nat.
Proof. split; [cbn; lia|reflexivity]. Qed.
Theorem C56_millisecond_ticks : forall time, 0 <= time -> 0 <= millisecondTicks time < 4294967296 /\
  (millisecondTicks time = time / 1000 <-> time < 4294967296000) /\ millisecondTicks (time + 4294967296000) = millisecondTicks time.
Proof.
  intros time H. unfold millisecondTicks, u32. pose proof (Z.mod_pos_bound (time / 1000) 4294967296 ltac:(lia)) as B. split; [exact B|]. split.
  - split.
    + intros E. rewrite E in B. pose proof (Z.mul_succ_div_gt time 1000 ltac:(lia)). lia.
    + intros E. apply Z.mod_small. split; [apply Z.div_pos; lia|]. apply Z.div_lt_upper_bound; lia.
  - replace (time + 4294967296000) with (time + 4294967296 * 1000) by lia. rewrite Z.div_add by lia. rewrite <- (Z.mul_1_l 4294967296) at 1. apply Z.mod_add. lia.
Qed.
Print Assumptions C56_millisecond_ticks.
(** Elapsed time as the difference of two readings, computed in the type of the counter.  Milliseconds on
    the ESP32: right across the wrap-around of the counter. *)
Theorem C56_elapsed : forall start stop, 0 <= start -> start <= stop -> stop / 1000 - start / 1000 < 4294967296 ->
  u32 (millisecondTicks stop - millisecondTicks start) = stop / 1000 - start / 1000.
Proof.
  intros start stop H0 H1 H2. unfold millisecondTicks, u32. rewrite <- Zminus_mod. apply Z.mod_small. split; [|exact H2].
  pose proof (Z.div_le_mono start stop 1000 ltac:(lia) H1). lia.
Qed.
Print Assumptions C56_elapsed.
(** Microseconds on the ESP32: the timer's value itself. *)
Theorem C56_elapsed_us : forall start stop, 0 <= start -> start <= stop -> stop < 18446744073709551616 ->
  microsecondTicks stop = stop /\ u64 (microsecondTicks stop - microsecondTicks start) = stop - start.
Proof. intros start stop H0 H1 H2. unfold microsecondTicks, u64. rewrite (Z.mod_small stop), (Z.mod_small start) by lia. split; [reflexivity|]. apply Z.mod_small. lia. Qed.
Print Assumptions C56_elapsed_us.
(** Microseconds on Arduino: the 64-bit result is the 32-bit counter, so the difference is right exactly
    when the counter has not wrapped around in between, which it does every 71.6 minutes. *)
Theorem C56_elapsed_us_arduino : forall start stop micros, (forall t, micros t = t mod 4294967296) ->
  0 <= start -> start <= stop -> stop < 18446744073709551616 ->
  (u64 (ardMicrosecondTicks (micros stop) - ardMicrosecondTicks (micros start)) = stop - start <-> start / 4294967296 = stop / 4294967296).
Proof.
  intros start stop micros HM H0 H1 H2. rewrite !HM. unfold ardMicrosecondTicks, u32, u64. rewrite !Z.mod_mod by lia.
  pose proof (Z.div_mod start 4294967296 ltac:(lia)) as D1. pose proof (Z.div_mod stop 4294967296 ltac:(lia)) as D2.
  pose proof (Z.mod_pos_bound start 4294967296 ltac:(lia)) as B1. pose proof (Z.mod_pos_bound stop 4294967296 ltac:(lia)) as B2.
  pose proof (Z.div_le_mono start stop 4294967296 ltac:(lia) H1) as DM.
  set (a := start mod 4294967296) in *. set (b := stop mod 4294967296) in *. set (p := start / 4294967296) in *. set (q := stop / 4294967296) in *. clearbody a b p q.
  rewrite (Z.mod_small a), (Z.mod_small b) by lia. split.
  - intros E. destruct (Z.le_gt_cases a b) as [L|L]; [rewrite Z.mod_small in E by lia; lia|].
    replace (b - a) with (b - a + 18446744073709551616 + (-1) * 18446744073709551616) in E by lia. rewrite Z.mod_add, Z.mod_small in E by lia. lia.
  - intros ->. rewrite Z.mod_small by lia. lia.
Qed.
Print Assumptions C56_elapsed_us_arduino.
Example C56_elapsed_case : u32 (millisecondTicks 4294967296500 - millisecondTicks 4294966296000) = 1000 /\
  u64 (ardMicrosecondTicks 10 - ardMicrosecondTicks 4294967290) <> 16.
Proof. split; vm_compute; [reflexivity|discriminate]. Qed.
(** C49 for light sleep: with a wrapped deadline it returns at once without sleeping *)
Theorem C49_light_wrap : forall fuel ticks sleeps tick ms, clock ticks -> 0 <= ms < 4294967296 -> 4294967296 <= ticks O + ms -> ticks O <= ticks 1%nat ->
  lightSleep (S fuel) ticks sleeps tick ms = Ok (2%nat, []).
Proof.
  intros fuel ticks sleeps tick ms Hc Hm Hw H1. unfold lightSleep. assert (HD : u32 (ticks O + ms) = ticks O + ms - 4294967296).
  { unfold u32. pose proof (Hc O). replace (ticks O + ms) with (ticks O + ms - 4294967296 + 1 * 4294967296) at 1 by lia. rewrite Z.mod_add by lia. apply Z.mod_small. lia. }
  rewrite HD. cbn [lightLoop]. pose proof (Hc O). replace (ticks 1%nat <? ticks O + ms - 4294967296) with false by lia. reflexivity.
Qed.
Print Assumptions C49_light_wrap.
Example C56_case :
  lightSleep 5 (fun n => 1000 + 10 * Z.of_nat n) (fun n => Nat.eqb n 1) 10 60 = Ok (7%nat, [Wakeup 40000; LightSleep; DelayTicks 3; Wakeup 10000; LightSleep]) /\
  delayTicksOf 10 65 = 6 /\ delayMicroseconds 9 (fun n => 7 * Z.of_nat n) 20 = Ok 4%nat.
Proof. split; [vm_compute; reflexivity|]. split; reflexivity. Qed.

(** C60: pin set-up. *)
Theorem C60_esp : forall (valid : Z -> bool) configure pin dir pull, 0 <= pin ->
  if valid pin then exists conf, espPinInit valid configure pin dir pull = (configure conf =? 0, Some conf) /\
      (forall q, 0 <= q -> (Z.testbit (pinBitMask conf) q = true <-> q = pin)) /\
      (modeInput conf = true <-> dir = Input) /\ (pullUpEn conf = true <-> pull = PullUp) /\ (pullDownEn conf = true <-> pull = PullDown)
  else espPinInit valid configure pin dir pull = (false, None).
Proof.
  intros valid configure pin dir pull Hp. unfold espPinInit. destruct (valid pin); [|reflexivity]. cbn [negb]. eexists. split; [reflexivity|]. cbn [pinBitMask modeInput pullUpEn pullDownEn]. split.
  - intros q Hq. rewrite Z.shiftl_1_l. split; [|intros ->; apply Z.pow2_bits_true; lia]. intros H. destruct (Z.eq_dec pin q) as [->|N]; [reflexivity|]. rewrite Z.pow2_bits_false in H by lia. discriminate.
  - destruct dir, pull; repeat split; try discriminate; reflexivity.
Qed.
Print Assumptions C60_esp.
(** the bits handed to pinMode are those of the direction and of the pull asked for *)
Theorem C60_arduino : forall cIn cOut cUp cDown dir pull, is_byte cIn -> is_byte cOut -> is_byte cUp -> is_byte cDown ->
  exists mode, ardPinInit cIn cOut cUp cDown dir pull = (true, mode) /\
    forall k, 0 <= k < 8 -> Z.testbit mode k = Z.testbit (match dir with Input => cIn | Output => cOut end) k || Z.testbit (match pull with PullUp => cUp | PullDown => cDown | PullNone => 0 end) k.
Proof.
  intros cIn cOut cUp cDown dir pull H1 H2 H3 H4. unfold ardPinInit. eexists. split; [reflexivity|]. intros k Hk. unfold u8.
  destruct pull; change 256 with (2 ^ 8); rewrite Z.mod_pow2_bits_low by lia; rewrite ?Z.lor_spec, ?Z.bits_0, ?orb_false_r; reflexivity.
Qed.
Print Assumptions C60_arduino.
Example C60_case : espPinInit (fun p => p <? 40) (fun _ => 0) 33 Input PullUp = (true, Some (mkGpio 8589934592 true true false)) /\
  espPinInit (fun p => p <? 40) (fun _ => 0) 41 Input PullUp = (false, None) /\ ardPinInit 1 3 4 8 Output PullDown = (true, 11).
Proof. repeat split. Qed.

(** C61: UART set-up. *)
Theorem C61_init : forall installed ok fifo u rx tx b d p s f,
  installed u = false ->
  let conf := mkUart b d p s f (if f =? 0 then 0 else 122) in
  let calls := [ParamConfig u conf; SetPin u tx rx; Install u (2 * fifo u)] in
  ((forall c, In c calls -> ok c = true) /\ uartInit installed ok fifo u rx tx b d p s f = (Returned true, calls)) \/
  (exists k c, (k < 3)%nat /\ (forall x, In x (firstn k calls) -> ok x = true) /\ nth_error calls k = Some c /\ ok c = false /\
     uartInit installed ok fifo u rx tx b d p s f = (Aborted, firstn (S k) calls)).
Proof.
  intros installed ok fifo u rx tx b d p s f Hi conf calls. unfold uartInit. rewrite Hi.
  assert (E8 : u8 (if f =? 0 then 0 else 122) = if f =? 0 then 0 else 122) by (destruct (f =? 0); reflexivity). rewrite E8. fold conf. rewrite (Z.mul_comm (fifo u) 2).
  destruct (ok (ParamConfig u conf)) eqn:E1; cbn [negb].
  2: { right. exists 0%nat. eexists. split; [lia|]. split; [intros x []|]. split; [reflexivity|]. split; [exact E1|reflexivity]. }
  destruct (ok (SetPin u tx rx)) eqn:E2; cbn [negb].
  2: { right. exists 1%nat. eexists. split; [lia|]. split; [intros x [<-|[]]; exact E1|]. split; [reflexivity|]. split; [exact E2|reflexivity]. }
  destruct (ok (Install u (2 * fifo u))) eqn:E3; cbn [negb].
  2: { right. exists 2%nat. eexists. split; [lia|]. split; [intros x [<-|[<-|[]]]; assumption|]. split; [reflexivity|]. split; [exact E3|reflexivity]. }
  left. split; [intros c [<-|[<-|[<-|[]]]]; assumption|reflexivity].
Qed.
Print Assumptions C61_init.
(** an installed driver keeps its settings: new ones are ignored although true is returned *)
Theorem C61_again : forall installed ok fifo u rx tx b d p s f, installed u = true ->
  uartInit installed ok fifo u rx tx b d p s f = (Returned true, []).
Proof. intros installed ok fifo u rx tx b d p s f H. unfold uartInit. rewrite H. reflexivity. Qed.
Print Assumptions C61_again.
Example C61_case : uartInit (fun _ => false) (fun c => match c with Install _ _ => false | _ => true end) (fun _ => 128) 1 16 17 115200 3 0 1 3
  = (Aborted, [ParamConfig 1 (mkUart 115200 3 0 1 3 122); SetPin 1 17 16; Install 1 256]).
Proof. reflexivity. Qed.

(** C62: I2C bus. *)
(** testAddress probes a 7-bit address in the upper bits, with the write bit; larger addresses alias *)
Theorem C62_probe : forall a, 0 <= a < 256 -> testAddressByte a = 2 * (a mod 128) /\ Z.odd (testAddressByte a) = false.
Proof.
  intros a H. assert (E : testAddressByte a = 2 * (a mod 128)).
  { unfold testAddressByte, u8. rewrite Z.lor_0_r. rewrite Z.shiftl_mul_pow2 by lia. rewrite (Z.mod_small a 256) by lia. change 256 with (128 * 2). change (2 ^ 1) with 2. rewrite Z.mul_mod_distr_r by lia. lia. }
  split; [exact E|]. rewrite E. rewrite Z.odd_mul. reflexivity.
Qed.
Print Assumptions C62_probe.
Example C62_case : testAddressByte 60 = 120 /\ testAddressByte 188 = 120.
Proof. split; reflexivity. Qed.
