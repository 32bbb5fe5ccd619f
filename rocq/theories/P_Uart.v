(** Properties C46-C49 and C57 (packet UART). *)
From Verif Require Import Base S_Uart M_UartEsp M_UartArduino L_UartEsp L_UartArduino.

(** C46: ESP32 ReceiveUntil. *)
Theorem C46_until : forall fuel ticks rx mem size e t,
  clock ticks -> 0 <= size < 65536 -> size <= zlen mem ->
  espReceiveUntil fuel ticks rx mem size e t = Fuel \/
  exists o, espReceiveUntil fuel ticks rx mem size e t = Ok o /\
    let got := received rx (reads o) in
    omem o = overwritten mem got /\ ocount o = zlen got /\ ocount o <= size /\ only_last e got /\
    (ends_with e got \/ ocount o = size \/ (t <> 0 /\ deadline ticks t <= last_reading ticks (clocks o))).
Proof.
  intros fuel ticks rx mem size e t Hck Hs Hm. unfold espReceiveUntil. fold (deadline ticks t).
  assert (HD : 0 <= deadline ticks t < 4294967296) by (apply Z.mod_pos_bound; lia). change (u32 (ticks O + t)) with (deadline ticks t).
  destruct (until_loop ticks rx mem size e t (deadline ticks t) Hck HD Hs Hm fuel (ticks O) 1 0 [] (fun H => H) ltac:(cbn; lia)) as [[E _]|[o [E [P _]]]]; [left; exact E|].
  right. exists o. split; [exact E|]. destruct P as [k [A [B [C [D [F [_ [_ R]]]]]]]]. split; [exact B|]. split; [exact C|]. split; [lia|]. split; [exact F|].
  destruct R as [[[R|R] _]|[R1 [R2 R3]]]; [left; exact R|right; left; lia|]. right. right. split; [exact R1|]. unfold last_reading. rewrite R2.
  replace (pred (1 + k + 1)) with (1 + k)%nat by lia. exact R3.
Qed.
Print Assumptions C46_until.
(** it is still running after [n] rounds exactly if nothing ended it: no end byte, room left, deadline
    not seen to pass *)
Theorem C46_running_iff : forall n ticks rx mem size e t,
  clock ticks -> 0 <= size < 65536 -> size <= zlen mem ->
  (espReceiveUntil n ticks rx mem size e t = Fuel <->
   (forall k, (k < n)%nat -> zlen (received rx k) < size) /\ ~ In e (received rx n) /\
   (t <> 0 -> forall i, (i < n)%nat -> ticks (S i) < deadline ticks t)).
Proof.
  intros fuel ticks rx mem size e t Hck Hs Hm. unfold espReceiveUntil.
  assert (HD : 0 <= deadline ticks t < 4294967296) by (apply Z.mod_pos_bound; lia). change (u32 (ticks O + t)) with (deadline ticks t).
  destruct (until_loop ticks rx mem size e t (deadline ticks t) Hck HD Hs Hm fuel (ticks O) 1 0 [] (fun H => H) ltac:(cbn; lia)) as [[E R]|[o [E [_ R]]]].
  - split; [intros _; exact R|intros _; exact E].
  - split; [intros K; change (espReceiveUntil fuel ticks rx mem size e t = Fuel) in K; unfold espReceiveUntil in K; change (u32 (ticks O + t)) with (deadline ticks t) in K;
      cbn [received] in E; unfold overwritten in E; cbn [length app skipn] in E; change (zlen (@nil Z)) with 0 in E; congruence|intros K; contradiction].
Qed.
Print Assumptions C46_running_iff.
(** so it ends with the end byte, a full buffer or the deadline, and only then; without a timeout it
    waits for ever *)
Theorem C46_ends : forall ticks rx mem size e t,
  clock ticks -> 0 <= size < 65536 -> size <= zlen mem ->
  (exists n, size <= zlen (received rx n)) \/ (exists n, In e (received rx n)) \/ (t <> 0 /\ exists i, deadline ticks t <= ticks (S i)) ->
  exists fuel o, espReceiveUntil fuel ticks rx mem size e t = Ok o.
Proof.
  intros ticks rx mem size e t Hck Hs Hm H.
  assert (N : exists n, espReceiveUntil n ticks rx mem size e t <> Fuel).
  { destruct H as [[n H]|[[n H]|[Ht [i H]]]].
    - exists (S n). rewrite C46_running_iff by assumption. intros [A _]. specialize (A n ltac:(lia)). lia.
    - exists n. rewrite C46_running_iff by assumption. intros [_ [A _]]. contradiction.
    - exists (S i). rewrite C46_running_iff by assumption. intros [_ [_ A]]. specialize (A Ht i ltac:(lia)). lia. }
  destruct N as [n N]. exists n. destruct (C46_until n ticks rx mem size e t Hck Hs Hm) as [K|[o [E _]]]; [contradiction|exists o; exact E].
Qed.
Print Assumptions C46_ends.
Theorem C46_no_deadline : forall ticks rx mem size e,
  clock ticks -> 0 <= size < 65536 -> size <= zlen mem ->
  (forall n, zlen (received rx n) < size /\ ~ In e (received rx n)) -> forall n, espReceiveUntil n ticks rx mem size e 0 = Fuel.
Proof.
  intros ticks rx mem size e Hck Hs Hm H n. apply C46_running_iff; try assumption. split; [intros k _; apply H|]. split; [apply H|]. intros K. congruence.
Qed.
Print Assumptions C46_no_deadline.
(** what it asks of the driver: each wait ends at the deadline; without a timeout it polls *)
Theorem C46_waits : forall fuel ticks rx mem size e t o,
  clock ticks -> 0 <= size < 65536 -> size <= zlen mem -> espReceiveUntil fuel ticks rx mem size e t = Ok o ->
  waits o = map (fun i => if t =? 0 then 0 else deadline ticks t - ticks (S i)) (seq 0 (reads o)) /\
  (t <> 0 -> forall i, (i < reads o)%nat -> ticks (S i) < deadline ticks t).
Proof.
  intros fuel ticks rx mem size e t o Hck Hs Hm EO. unfold espReceiveUntil in EO.
  assert (HD : 0 <= deadline ticks t < 4294967296) by (apply Z.mod_pos_bound; lia). change (u32 (ticks O + t)) with (deadline ticks t) in EO.
  destruct (until_loop ticks rx mem size e t (deadline ticks t) Hck HD Hs Hm fuel (ticks O) 1 0 [] (fun H => H) ltac:(cbn; lia)) as [[E R]|[o' [E [P _]]]];
    cbn [received] in E; unfold overwritten in E; cbn [length app skipn] in E; change (zlen (@nil Z)) with 0 in E; [congruence|].
  assert (o' = o) by congruence. subst o'. destruct P as [k [A [_ [_ [_ [_ [G [W _]]]]]]]]. cbn [Nat.add] in A. subst k. split; [|exact G].
  rewrite W. cbn [app]. apply map_ext. intros i. destruct (Z.eqb_spec t 0) as [->|Ht]; [|reflexivity].
  unfold deadline. rewrite Z.add_0_r. rewrite Z.mod_small by apply Hck. rewrite Z.sub_diag. reflexivity.
Qed.
Print Assumptions C46_waits.
Example C46_case :
  let rx := fun n => nth n [Some 7; None; Some 9; Some 13; Some 1] None in
  let ticks := fun n => 1000 + Z.of_nat n in
  clock (fun n => Z.min 5000 (ticks n)) /\
  espReceiveUntil 10 ticks rx [0; 0; 0; 0; 0; 0] 5 13 200 = Ok (mkOut [7; 9; 13; 0; 0; 0] 3 5 4 [199; 198; 197; 196]) /\
  received rx 4 = [7; 9; 13].
Proof. split; [intros n; lia|split; reflexivity]. Qed.

(** C47: ESP32 ReceiveBetween. *)
Theorem C47_between : forall fuel ticks rx mem size s e t,
  clock ticks -> 2 <= size < 65536 -> size <= zlen mem -> 0 <= t -> ticks O + t < 4294967296 ->
  espReceiveBetween fuel ticks rx mem size s e t = Fuel \/
  exists o, espReceiveBetween fuel ticks rx mem size s e t = Ok o /\
    ((ocount o = 0 /\ clocks o = 1%nat /\ skipn 1 (omem o) = skipn 1 mem /\ zlen (omem o) = zlen mem /\
      exists k, reads o = S k /\ rx k = None /\ forall i, (i < k)%nat -> exists b, rx i = Some b /\ b <> s) \/
     (exists noise rest, received rx (reads o) = noise ++ s :: rest /\ ~ In s noise /\
        omem o = overwritten mem (s :: rest) /\ ocount o = 1 + zlen rest /\ ocount o <= size /\ only_last e rest /\
        (ends_with e rest \/ ocount o = size \/ deadline ticks t < last_reading ticks (clocks o)))).
Proof.
  intros fuel ticks rx mem size s e t Hck Hs Hm Ht Hw. unfold espReceiveBetween. replace (size <? 2) with false by lia.
  assert (HD : 0 <= deadline ticks t < 4294967296) by (apply Z.mod_pos_bound; lia). change (u32 (ticks O + t)) with (deadline ticks t).
  assert (HS : ticks O <= deadline ticks t) by (pose proof (Hck O); unfold deadline; rewrite Z.mod_small by lia; lia).
  destruct mem as [|x mem]; [change (zlen (@nil Z)) with 0 in Hm; lia|].
  destruct (find_loop rx s (ticks O) (deadline ticks t) HS fuel x mem 0 []) as [[E _]|[[k [x' [E [N [R _]]]]]|[k [E [N [R _]]]]]]; rewrite E; cbn [bind]; [left; reflexivity| |].
  - right. eexists. split; [reflexivity|]. left. cbn [ocount omem reads]. split; [reflexivity|]. split; [reflexivity|]. split; [reflexivity|]. split; [rewrite !zlen_cons; reflexivity|].
    exists k. split; [lia|]. split; [exact R|exact N].
  - destruct (received_noise rx s k N) as [_ Hns].
    assert (HR : received rx (0 + k + 1) = (received rx k ++ [s]) ++ []) by (replace (0 + k + 1)%nat with (S k) by lia; rewrite received_S; cbn [Nat.add] in R; rewrite R, app_nil_r; reflexivity).
    destruct (rest_loop ticks rx (x :: mem) (received rx k ++ [s]) s size e (deadline ticks t) Hck HD ltac:(lia) Hm fuel 1 (0 + k + 1) [] ([] ++ repeat (u32 (deadline ticks t - ticks O)) (k + 1)) HR (fun H => H) ltac:(cbn; lia)) as [[E2 _]|[o [E2 [P _]]]].
    + left. exact E2.
    + right. exists o. split; [exact E2|]. right. destruct P as [j [rest [A [B [C [D [F [G [_ [_ R2]]]]]]]]]].
      exists (received rx k), rest. split; [rewrite B, <- app_assoc; reflexivity|]. split; [exact Hns|]. split; [exact C|]. split; [exact D|]. split; [exact F|]. split; [exact G|].
      destruct R2 as [[R2 _]|[[R2 _]|[R2 R3]]]; [left; exact R2|right; left; exact R2|]. right. right. unfold last_reading. rewrite R2.
      replace (pred (1 + j + 1)) with (1 + j)%nat by lia. exact R3.
Qed.
Print Assumptions C47_between.
Theorem C47_small : forall fuel ticks rx mem size s e t, size < 2 ->
  espReceiveBetween fuel ticks rx mem size s e t = Ok (mkOut mem 0 0 0 []).
Proof. intros fuel ticks rx mem size s e t H. unfold espReceiveBetween. replace (size <? 2) with true by lia. reflexivity. Qed.
Print Assumptions C47_small.
(** the search for the start byte never looks at the clock: as long as other bytes arrive it goes on *)
Theorem C47_search_ignores_clock : forall n ticks rx mem size s e t,
  clock ticks -> 2 <= size -> size <= zlen mem -> 0 <= t -> ticks O + t < 4294967296 ->
  (forall i, (i < n)%nat -> exists b, rx i = Some b /\ b <> s) ->
  espReceiveBetween n ticks rx mem size s e t = Fuel.
Proof.
  intros n ticks rx mem size s e t Hck Hs Hm Ht Hw H. unfold espReceiveBetween. replace (size <? 2) with false by lia.
  change (u32 (ticks O + t)) with (deadline ticks t).
  assert (HS : ticks O <= deadline ticks t) by (pose proof (Hck O); unfold deadline; rewrite Z.mod_small by lia; lia).
  destruct mem as [|x mem]; [change (zlen (@nil Z)) with 0 in Hm; lia|].
  destruct (find_loop rx s (ticks O) (deadline ticks t) HS n x mem 0 []) as [[E _]|[[k [x' [E [N [R F]]]]]|[k [E [N [R F]]]]]].
  - rewrite E. reflexivity.
  - destruct (H k F) as [b [K _]]. cbn [Nat.add] in R. congruence.
  - destruct (H k F) as [b [K Nb]]. cbn [Nat.add] in R. congruence.
Qed.
Print Assumptions C47_search_ignores_clock.
(** it ends at the first request without an answer, or, once the start byte has come, with the end
    byte, a full buffer or a clock past the deadline *)
Theorem C47_ends : forall ticks rx mem size s e t k,
  clock ticks -> 2 <= size < 65536 -> size <= zlen mem -> 0 <= t -> ticks O + t < 4294967296 ->
  only_noise rx s k ->
  rx k = None \/
  (rx k = Some s /\
   ((exists n, size <= 1 + zlen (received (from rx (S k)) n)) \/ (exists n, In e (received (from rx (S k)) n)) \/
    (exists i, deadline ticks t < ticks (S i)))) ->
  exists fuel o, espReceiveBetween fuel ticks rx mem size s e t = Ok o.
Proof.
  intros ticks rx mem size s e t k Hck Hs Hm Ht Hw HN H.
  assert (HD : 0 <= deadline ticks t < 4294967296) by (apply Z.mod_pos_bound; lia).
  assert (HS : ticks O <= deadline ticks t) by (pose proof (Hck O); unfold deadline; rewrite Z.mod_small by lia; lia).
  destruct mem as [|x mem]; [change (zlen (@nil Z)) with 0 in Hm; lia|].
  assert (G : exists n, (k < n)%nat /\ (rx k = None \/ (rx k = Some s /\ ~ rest_runs ticks rx (received rx k ++ [s]) size e (deadline ticks t) 1 (S k) n))).
  { destruct H as [H|[H R]]; [exists (S k); split; [lia|left; exact H]|].
    assert (RS : received rx (S k) = received rx k ++ [s]) by (rewrite received_S, H; reflexivity).
    assert (AF : forall n, skipn (length (received rx k ++ [s])) (received rx (S k + n)) = received (from rx (S k)) n).
    { intros n. rewrite received_from, <- RS, skipn_app, skipn_all, Nat.sub_diag. reflexivity. }
    destruct R as [[n R]|[[n R]|[i R]]].
    - exists (S (k + n)). split; [lia|]. right. split; [exact H|]. intros [K _]. specialize (K n ltac:(lia)). rewrite AF in K. lia.
    - exists (S (k + n)). split; [lia|]. right. split; [exact H|]. intros [_ K]. apply K. rewrite AF. apply (received_keeps _ _ n); [lia|exact R].
    - exists (S (k + i)). split; [lia|]. right. split; [exact H|]. intros [K _]. specialize (K i ltac:(lia)). cbn [Nat.add] in K. lia. }
  destruct G as [n [Hkn G]]. exists n. unfold espReceiveBetween. replace (size <? 2) with false by lia. change (u32 (ticks O + t)) with (deadline ticks t).
  destruct (find_loop rx s (ticks O) (deadline ticks t) HS n x mem 0 []) as [[E N]|[[j [x' [E [N [R F]]]]]|[j [E [N [R F]]]]]]; rewrite E; cbn [bind].
  - exfalso. destruct (N k Hkn) as [b [N1 N2]]. cbn [Nat.add] in N1. destruct G as [G|[G _]]; congruence.
  - eexists. reflexivity.
  - cbn [Nat.add] in R, N. assert (EJ : j = k).
    { destruct (Nat.lt_trichotomy j k) as [L|[L|L]]; [|exact L|].
      - destruct (HN j L) as [b [B1 B2]]. congruence.
      - destruct (N k L) as [b [B1 B2]]. destruct G as [G|[G _]]; congruence. }
    subst j. destruct G as [G|[_ G]]; [congruence|].
    assert (HR : received rx (0 + k + 1) = (received rx k ++ [s]) ++ []) by (replace (0 + k + 1)%nat with (S k) by lia; rewrite received_S, R, app_nil_r; reflexivity).
    destruct (rest_loop ticks rx (x :: mem) (received rx k ++ [s]) s size e (deadline ticks t) Hck HD ltac:(lia) Hm n 1 (0 + k + 1) [] ([] ++ repeat (u32 (deadline ticks t - ticks O)) (k + 1)) HR (fun H => H) ltac:(cbn; lia)) as [[E2 R2]|[o [E2 _]]].
    + exfalso. apply G. replace (S k) with (0 + k + 1)%nat by lia. exact R2.
    + exists o. exact E2.
Qed.
Print Assumptions C47_ends.
(** it is still running after [n] rounds exactly if [n] bytes of noise came, or the start byte did and since then
    neither the end byte nor a full buffer nor a clock past the deadline *)
Theorem C47_running_iff : forall n ticks rx mem size s e t,
  clock ticks -> 2 <= size < 65536 -> size <= zlen mem -> 0 <= t -> ticks O + t < 4294967296 ->
  (espReceiveBetween n ticks rx mem size s e t = Fuel <->
   only_noise rx s n \/
   exists k, (k < n)%nat /\ only_noise rx s k /\ rx k = Some s /\
     (forall i, (i < n)%nat -> ticks (S i) <= deadline ticks t /\ 1 + zlen (received (from rx (S k)) i) < size) /\
     ~ In e (received (from rx (S k)) n)).
Proof.
  intros n ticks rx mem size s e t Hck Hs Hm Ht Hw. unfold espReceiveBetween. replace (size <? 2) with false by lia.
  assert (HD : 0 <= deadline ticks t < 4294967296) by (apply Z.mod_pos_bound; lia). change (u32 (ticks O + t)) with (deadline ticks t).
  assert (HS : ticks O <= deadline ticks t) by (pose proof (Hck O); unfold deadline; rewrite Z.mod_small by lia; lia).
  destruct mem as [|x mem]; [change (zlen (@nil Z)) with 0 in Hm; lia|].
  assert (AF : forall k, rx k = Some s -> forall i, skipn (length (received rx k ++ [s])) (received rx (S k + i)) = received (from rx (S k)) i).
  { intros k H i. rewrite received_from, received_S, H, skipn_app, skipn_all, Nat.sub_diag. reflexivity. }
  destruct (find_loop rx s (ticks O) (deadline ticks t) HS n x mem 0 []) as [[E N]|[[j [x' [E [N [R F]]]]]|[j [E [N [R F]]]]]]; rewrite E; cbn [bind]; cbn [Nat.add] in N; try cbn [Nat.add] in R.
  - split; [intros _; left; exact N|reflexivity].
  - split; [discriminate|]. intros [H|[k [Hk [H1 [H2 _]]]]]; [destruct (H j F) as [b [B _]]; congruence|].
    destruct (Nat.lt_trichotomy j k) as [L|[L|L]]; [destruct (H1 j L) as [b [B _]]; congruence|congruence|destruct (N k L) as [b [B1 B2]]; congruence].
  - assert (HR : received rx (0 + j + 1) = (received rx j ++ [s]) ++ []) by (replace (0 + j + 1)%nat with (S j) by lia; rewrite received_S, R, app_nil_r; reflexivity).
    assert (RR : rest_runs ticks rx (received rx j ++ [s]) size e (deadline ticks t) 1 (0 + j + 1) n <->
      (forall i, (i < n)%nat -> ticks (S i) <= deadline ticks t /\ 1 + zlen (received (from rx (S j)) i) < size) /\ ~ In e (received (from rx (S j)) n)).
    { unfold rest_runs. replace (0 + j + 1)%nat with (S j) by lia. rewrite (AF j R n).
      split; intros [A B]; (split; [|exact B]); intros i Hi; specialize (A i Hi); rewrite (AF j R i) in *; exact A. }
    destruct (rest_loop ticks rx (x :: mem) (received rx j ++ [s]) s size e (deadline ticks t) Hck HD ltac:(lia) Hm n 1 (0 + j + 1) [] ([] ++ repeat (u32 (deadline ticks t - ticks O)) (j + 1)) HR (fun H => H) ltac:(cbn; lia)) as [[E2 R2]|[o [E2 [_ R2]]]].
    + split; [|intros _; exact E2]. intros _. right. exists j. split; [exact F|]. split; [exact N|]. split; [exact R|]. apply RR. exact R2.
    + split; [intros K; change (overwritten (x :: mem) [s]) with (s :: mem) in E2; change (1 + zlen (@nil Z)) with 1 in E2; congruence|].
      intros [H|[k [Hk [H1 [H2 H3]]]]]; [destruct (H j F) as [b [B1 B2]]; congruence|]. exfalso. apply R2. apply RR.
      destruct (Nat.lt_trichotomy j k) as [L|[L|L]]; [destruct (H1 j L) as [b [B1 B2]]; congruence|subst k; exact H3|destruct (N k L) as [b [B1 B2]]; congruence].
Qed.
Print Assumptions C47_running_iff.
(** what it asks of the driver: the whole timeout for every byte up to the start byte, however long that takes, then
    the time left to the deadline *)
Theorem C47_waits : forall fuel ticks rx mem size s e t o,
  clock ticks -> 2 <= size < 65536 -> size <= zlen mem -> 0 <= t -> ticks O + t < 4294967296 ->
  espReceiveBetween fuel ticks rx mem size s e t = Ok o ->
  exists k, only_noise rx s k /\ (rx k = None /\ reads o = S k \/ rx k = Some s /\ (S k <= reads o)%nat) /\
    waits o = repeat t (S k) ++ map (fun i => deadline ticks t - ticks (S i)) (seq 0 (reads o - S k)) /\
    forall i, (i < reads o - S k)%nat -> ticks (S i) <= deadline ticks t.
Proof.
  intros fuel ticks rx mem size s e t o Hck Hs Hm Ht Hw. unfold espReceiveBetween. replace (size <? 2) with false by lia.
  assert (HD : 0 <= deadline ticks t < 4294967296) by (apply Z.mod_pos_bound; lia). change (u32 (ticks O + t)) with (deadline ticks t).
  assert (HE : deadline ticks t = ticks O + t) by (pose proof (Hck O); unfold deadline; apply Z.mod_small; lia).
  assert (HS : ticks O <= deadline ticks t) by lia.
  assert (HT : u32 (deadline ticks t - ticks O) = t) by (rewrite HE; replace (ticks O + t - ticks O) with t by lia; pose proof (Hck O); unfold u32; apply Z.mod_small; lia).
  destruct mem as [|x mem]; [change (zlen (@nil Z)) with 0 in Hm; lia|].
  destruct (find_loop rx s (ticks O) (deadline ticks t) HS fuel x mem 0 []) as [[E N]|[[j [x' [E [N [R F]]]]]|[j [E [N [R F]]]]]]; rewrite E; cbn [bind]; try cbn [Nat.add] in R; cbn [Nat.add] in N; [discriminate| |].
  - intros K. apply Ok_inj in K. subst o. cbn [reads waits]. exists j. split; [exact N|]. split; [left; split; [exact R|lia]|].
    replace (0 + j + 1 - S j)%nat with O by lia. cbn [seq map]. rewrite HT, app_nil_r. replace (j + 1)%nat with (S j) by lia. split; [reflexivity|intros i Hi; lia].
  - assert (HR : received rx (0 + j + 1) = (received rx j ++ [s]) ++ []) by (replace (0 + j + 1)%nat with (S j) by lia; rewrite received_S, R, app_nil_r; reflexivity).
    intros K.
    destruct (rest_loop ticks rx (x :: mem) (received rx j ++ [s]) s size e (deadline ticks t) Hck HD ltac:(lia) Hm fuel 1 (0 + j + 1) [] ([] ++ repeat (u32 (deadline ticks t - ticks O)) (j + 1)) HR (fun H => H) ltac:(cbn; lia)) as [[E2 R2]|[o' [E2 [P _]]]];
      change (overwritten (x :: mem) [s]) with (s :: mem) in E2; change (1 + zlen (@nil Z)) with 1 in E2; [congruence|].
    assert (o' = o) by congruence. subst o'. destruct P as [k [rest [A [_ [_ [_ [_ [_ [G [W _]]]]]]]]]].
    exists j. split; [exact N|]. split; [right; split; [exact R|lia]|]. replace (reads o - S j)%nat with k by lia. split; [|exact G].
    rewrite W, HT. replace (j + 1)%nat with (S j) by lia. reflexivity.
Qed.
Print Assumptions C47_waits.
(** when the deadline wraps past 2^32 the search is skipped: the first byte of the packet is what the
    buffer held before *)
Theorem C47_wrap : forall fuel ticks rx x mem size s e t,
  clock ticks -> 2 <= size < 65536 -> size <= zlen (x :: mem) -> 0 <= t < 65536 -> 4294967296 <= ticks O + t ->
  espReceiveBetween fuel ticks rx (x :: mem) size s e t = Fuel \/
  exists o, espReceiveBetween fuel ticks rx (x :: mem) size s e t = Ok o /\
    omem o = overwritten (x :: mem) (x :: received rx (reads o)) /\ ocount o = 1 + zlen (received rx (reads o)) /\
    (deadline ticks t < ticks 1%nat -> reads o = O /\ ocount o = 1).
Proof.
  intros fuel ticks rx x mem size s e t Hck Hs Hm Ht Hw. unfold espReceiveBetween. replace (size <? 2) with false by lia.
  assert (HD : 0 <= deadline ticks t < 4294967296) by (apply Z.mod_pos_bound; lia). change (u32 (ticks O + t)) with (deadline ticks t).
  assert (HS : deadline ticks t < ticks O) by (pose proof (Hck O); unfold deadline; replace (ticks O + t) with (ticks O + t - 4294967296 + 1 * 4294967296) by lia; rewrite Z.mod_add by lia; rewrite Z.mod_small by lia; lia).
  destruct fuel as [|fuel]; [left; reflexivity|].
  assert (EF : findLoop (S fuel) rx s (ticks O) (deadline ticks t) (x :: mem) 0 [] = Ok (true, x :: mem, O, [])) by (cbn [findLoop]; replace (ticks O <=? deadline ticks t) with false by lia; reflexivity).
  rewrite EF. cbn [bind].
  destruct (rest_loop ticks rx (x :: mem) [] x size e (deadline ticks t) Hck HD ltac:(lia) Hm (S fuel) 1 0 [] [] eq_refl (fun H => H) ltac:(cbn; lia)) as [[E2 _]|[o [E2 [P _]]]]; [left; exact E2|].
  right. exists o. split; [exact E2|]. destruct P as [k [rest [A [B [C [D [F [_ [G _]]]]]]]]]. cbn [app] in B. subst rest. split; [exact C|]. split; [exact D|].
  intros H1. destruct k as [|k]; [cbn [Nat.add] in A; rewrite A in *; split; [reflexivity|exact D]|]. specialize (G O ltac:(lia)). cbn [Nat.add] in G. lia.
Qed.
Print Assumptions C47_wrap.
Example C47_case :
  let rx := fun n => nth n [Some 7; Some 2; Some 9; None; Some 3; Some 1] None in
  let ticks := fun n => 1000 + Z.of_nat n in
  espReceiveBetween 10 ticks rx [0; 0; 0; 0; 0] 4 2 3 50 = Ok (mkOut [2; 9; 3; 0; 0] 3 4 5 [50; 50; 49; 48; 47]) /\
  espReceiveBetween 10 (fun n => 4294967290 + Z.of_nat n) rx [65; 0; 0; 0; 0] 4 2 3 50 = Ok (mkOut [65; 0; 0; 0; 0] 1 2 0 []).
Proof. split; reflexivity. Qed.

(** C48: Arduino. *)
Theorem C48_receive : forall fuel ticks rx mem size t,
  byte_source rx -> 0 <= size < 65536 -> size <= zlen mem ->
  ardReceive fuel ticks rx mem size t = Fuel \/
  exists n k, ardReceive fuel ticks rx mem size t = Ok (overwritten mem (received rx k), zlen (received rx k), n, k) /\
    zlen (received rx k) <= size /\ (zlen (received rx k) = size \/ deadline ticks t <= last_reading ticks n).
Proof.
  intros fuel ticks rx mem size t Hb Hs Hm. unfold ardReceive. change (u32 (ticks O + t)) with (deadline ticks t).
  destruct (receive_loop ticks rx mem size (deadline ticks t) Hb Hs Hm fuel 1 0 ltac:(cbn; lia)) as [[E _]|[k [E [A [_ [_ D]]]]]]; [left; exact E|].
  right. exists (1 + k + 1)%nat, k. split; [exact E|]. split; [exact A|]. unfold last_reading. replace (pred (1 + k + 1)) with (1 + k)%nat by lia. destruct D as [D|D]; [right; exact D|left; exact D].
Qed.
Print Assumptions C48_receive.
Theorem C48_receive_running_iff : forall n ticks rx mem size t,
  byte_source rx -> 0 <= size < 65536 -> size <= zlen mem ->
  (ardReceive n ticks rx mem size t = Fuel <->
   forall k, (k < n)%nat -> ticks (S k) < deadline ticks t /\ zlen (received rx k) < size).
Proof.
  intros fuel ticks rx mem size t Hb Hs Hm. unfold ardReceive. change (u32 (ticks O + t)) with (deadline ticks t).
  destruct (receive_loop ticks rx mem size (deadline ticks t) Hb Hs Hm fuel 1 0 ltac:(cbn; lia)) as [[E R]|[k [E [A [_ [F D]]]]]].
  - split; [intros _; exact R|intros _; exact E].
  - split; [intros K|intros K; destruct (K k F) as [K1 K2]; cbn [Nat.add] in D; destruct D as [D|D]; lia].
    cbn [received] in E. unfold overwritten in E at 1. cbn [length app skipn] in E. change (zlen (@nil Z)) with 0 in E. congruence.
Qed.
Print Assumptions C48_receive_running_iff.
Theorem C48_until : forall fuel timed old mem size e t,
  1 <= size < 65536 -> size <= zlen mem -> 0 <= t ->
  let T := if 0 <? t then t else old in
  ardReceiveUntil fuel timed old mem size e t = Fuel \/
  exists got o, ardReceiveUntil fuel timed old mem size e t = Ok o /\ delivers timed T e got /\
    amem o = overwritten mem (got ++ [e]) /\ acount o = zlen got + 1 /\ acount o <= size /\ aTimeout o = old /\ aClocks o = O /\ aReads o = O /\
    (acount o = size \/ timed (length got) T = None \/ timed (length got) T = Some e).
Proof.
  intros fuel timed old mem size e t Hs Hm Ht T. unfold ardReceiveUntil. fold T.
  assert (EL : u32 (size - 1) = size - 1) by (unfold u32; apply Z.mod_small; lia). rewrite EL.
  assert (D0 : delivers timed T e []) by (split; [intros [|i] b H; discriminate|intros []]).
  destruct (read_until timed T e (size - 1) mem [] ltac:(cbn; lia) fuel [] D0 ltac:(cbn; lia)) as [[E _]|[got [n [E [D [L [_ R]]]]]]].
  { left. cbn [app] in E. change (overwritten mem []) with mem in E. change (zlen (@nil Z)) with 0 in E. cbn [length] in E. rewrite E. reflexivity. }
  right. cbn [app] in *. change (overwritten mem []) with mem in E. change (zlen (@nil Z)) with 0 in E. cbn [length] in E. rewrite E. cbn [bind].
  pose proof (zlen_nonneg got) as Hn. assert (E16 : u16 (0 + zlen got) = zlen got) by (unfold u16; apply Z.mod_small; lia). rewrite E16.
  rewrite overwrite_next by lia. cbn [bind]. exists got. eexists. split; [reflexivity|]. cbn [amem acount aTimeout]. split; [exact D|]. split; [reflexivity|].
  assert (E17 : u16 (zlen got + 1) = zlen got + 1) by (unfold u16; apply Z.mod_small; lia). rewrite E17. split; [reflexivity|]. split; [lia|]. split; [reflexivity|]. split; [reflexivity|]. split; [reflexivity|].
  destruct R as [[R _]|[_ [_ R]]]; [left; lia|right; exact R].
Qed.
Print Assumptions C48_until.
(** it always ends *)
Theorem C48_until_ends : forall fuel timed old mem size e t,
  1 <= size < 65536 -> size <= zlen mem -> 0 <= t -> size <= Z.of_nat fuel ->
  exists o, ardReceiveUntil fuel timed old mem size e t = Ok o.
Proof.
  intros fuel timed old mem size e t Hs Hm Ht Hf. destruct (C48_until fuel timed old mem size e t Hs Hm Ht) as [K|[got [o [E _]]]]; [|exists o; exact E].
  exfalso. unfold ardReceiveUntil in K. assert (EL : u32 (size - 1) = size - 1) by (unfold u32; apply Z.mod_small; lia). rewrite EL in K.
  set (T := if 0 <? t then t else old) in *. assert (D0 : delivers timed T e []) by (split; [intros [|i] b H; discriminate|intros []]).
  pose proof (read_until_ends timed T e (size - 1) mem [] ltac:(cbn; lia) fuel [] D0 ltac:(cbn; lia) ltac:(cbn; lia)) as N.
  cbn [app length] in N. change (overwritten mem []) with mem in N. change (zlen (@nil Z)) with 0 in N.
  destruct (read_until timed T e (size - 1) mem [] ltac:(cbn; lia) fuel [] D0 ltac:(cbn; lia)) as [[E _]|[got [n [E [D [L [_ R]]]]]]];
    cbn [app length] in E; change (overwritten mem []) with mem in E; change (zlen (@nil Z)) with 0 in E; [contradiction|].
  rewrite E in K. cbn [bind app] in K. pose proof (zlen_nonneg got) as Hn. assert (E16 : u16 (0 + zlen got) = zlen got) by (unfold u16; apply Z.mod_small; cbn [app] in L; lia). rewrite E16 in K.
  cbn [app] in L. rewrite overwrite_next in K by lia. discriminate.
Qed.
Print Assumptions C48_until_ends.
(** the end byte in the result is no evidence of reception *)
Theorem C48_end_received_refuted : exists timed mem e o,
  ardReceiveUntil 10 timed 1000 mem 4 e 50 = Ok o /\ ends_with e (firstn (Z.to_nat (acount o)) (amem o)) /\
  forall n T, timed n T <> Some e.
Proof.
  exists (fun _ _ => None), [0; 0; 0; 0], 13. eexists. split; [reflexivity|]. split; [exists []; reflexivity|]. intros n T. discriminate.
Qed.
Print Assumptions C48_end_received_refuted.
Theorem C48_between : forall fuel ticks rx timed old mem size s e t,
  2 <= size < 65536 -> size <= zlen mem -> 0 <= t -> is_byte s ->
  let T := if 0 <? t then t else old in
  ardReceiveBetween fuel ticks rx timed old mem size s e t = Fuel \/
  exists o, ardReceiveBetween fuel ticks rx timed old mem size s e t = Ok o /\ aTimeout o = old /\
    ((acount o = 0 /\ aTimed o = O /\ amem o = mem /\ t <> 0 /\ deadline ticks t <= last_reading ticks (aClocks o) /\
      forall i, (i < aReads o)%nat -> rx i <> Some s) \/
     (exists got, rx (pred (aReads o)) = Some s /\ (forall i, (i < pred (aReads o))%nat -> rx i <> Some s) /\ delivers timed T e got /\
        amem o = overwritten mem (s :: got ++ [e]) /\ acount o = zlen got + 2 /\ acount o <= size /\
        (acount o = size \/ timed (length got) T = None \/ timed (length got) T = Some e))).
Proof.
  intros fuel ticks rx timed old mem size s e t Hs Hm Ht Hsb T. unfold ardReceiveBetween. fold T. change (u32 (ticks O + t)) with (deadline ticks t).
  destruct (search_loop ticks rx s t (deadline ticks t) fuel 1 0) as [[E _]|[k [_ [N [[E [A B]]|[E [A B]]]]]]]; rewrite E; cbn [bind]; [left; reflexivity| |].
  2: { right. eexists. split; [reflexivity|]. cbn [aTimeout acount amem aClocks aReads]. split; [reflexivity|]. left. split; [reflexivity|]. split; [reflexivity|]. split; [reflexivity|]. split; [exact A|].
    split; [unfold last_reading; replace (pred (1 + k + 1)) with (1 + k)%nat by lia; exact B|]. intros i Hi. exact (proj1 (N i Hi)). }
  assert (E8 : u8 s = s) by (unfold u8; apply Z.mod_small; exact Hsb). rewrite E8.
  assert (EW : wr mem 0 s = Ok (overwritten mem [s])) by (apply (overwrite_next mem [] s); change (zlen (@nil Z)) with 0; lia). rewrite EW. cbn [bind].
  replace (size - 1 - 1) with (size - 2) by lia. assert (EL : u32 (size - 2) = size - 2) by (unfold u32; apply Z.mod_small; lia). rewrite EL.
  assert (D0 : delivers timed T e []) by (split; [intros [|i] b H; discriminate|intros []]).
  destruct (read_until timed T e (size - 2) mem [s] ltac:(change (zlen [s]) with 1; lia) fuel [] D0 ltac:(cbn; lia)) as [[E2 _]|[got [n [E2 [D [L [_ R]]]]]]].
  { left. cbn [app] in E2. change (zlen [s]) with 1 in E2. change (zlen (@nil Z)) with 0 in E2. cbn [length] in E2. rewrite E2. reflexivity. }
  right. cbn [app] in *. change (zlen [s]) with 1 in E2. change (zlen (@nil Z)) with 0 in E2. cbn [length] in E2. rewrite E2. cbn [bind].
  pose proof (zlen_nonneg got) as Hn. assert (E16 : u16 (1 + zlen got) = zlen (s :: got)) by (rewrite zlen_cons; unfold u16; apply Z.mod_small; lia). rewrite E16.
  rewrite overwrite_next by (rewrite zlen_cons; lia). cbn [bind]. eexists. split; [reflexivity|]. cbn [aTimeout acount amem aClocks aReads]. split; [reflexivity|]. right.
  exists got. replace (pred (0 + k + 1)) with k by lia. split; [exact A|]. split; [intros i Hi; exact (proj1 (N i Hi))|]. split; [exact D|]. split; [reflexivity|].
  assert (E17 : u16 (zlen (s :: got) + 1) = zlen got + 2) by (rewrite zlen_cons; unfold u16; rewrite Z.mod_small by lia; lia). rewrite E17. split; [reflexivity|]. split; [lia|].
  destruct R as [[R _]|[_ [_ R]]]; [left; lia|right; exact R].
Qed.
Print Assumptions C48_between.
(** it is still running after [n] rounds exactly if no start byte has come and the time is not over *)
Theorem C48_between_running_iff : forall n ticks rx timed old mem size s e t,
  2 <= size < 65536 -> size <= zlen mem -> 0 <= t -> is_byte s -> size <= Z.of_nat n ->
  (ardReceiveBetween n ticks rx timed old mem size s e t = Fuel <->
   forall k, (k < n)%nat -> rx k <> Some s /\ (t <> 0 -> ticks (S k) < deadline ticks t)).
Proof.
  intros n ticks rx timed old mem size s e t Hs Hm Ht Hsb Hn. unfold ardReceiveBetween. change (u32 (ticks O + t)) with (deadline ticks t).
  set (T := if 0 <? t then t else old).
  destruct (search_loop ticks rx s t (deadline ticks t) n 1 0) as [[E R]|[k [F [N [[E [A B]]|[E [A B]]]]]]]; rewrite E; cbn [bind].
  - split; [intros _; exact R|reflexivity].
  - split; [|intros K; destruct (K k F) as [K1 _]; contradiction]. intros K. exfalso. revert K.
    assert (E8 : u8 s = s) by (unfold u8; apply Z.mod_small; exact Hsb). rewrite E8.
    assert (EW : wr mem 0 s = Ok (overwritten mem [s])) by (apply (overwrite_next mem [] s); change (zlen (@nil Z)) with 0; lia). rewrite EW. cbn [bind].
    replace (size - 1 - 1) with (size - 2) by lia. assert (EL : u32 (size - 2) = size - 2) by (unfold u32; apply Z.mod_small; lia). rewrite EL.
    assert (D0 : delivers timed T e []) by (split; [intros [|i] b H; discriminate|intros []]).
    pose proof (read_until_ends timed T e (size - 2) mem [s] ltac:(change (zlen [s]) with 1; lia) n [] D0 ltac:(cbn; lia) ltac:(cbn; lia)) as NF.
    cbn [app length] in NF. change (zlen [s]) with 1 in NF. change (zlen (@nil Z)) with 0 in NF.
    destruct (read_until timed T e (size - 2) mem [s] ltac:(change (zlen [s]) with 1; lia) n [] D0 ltac:(cbn; lia)) as [[E2 _]|[got [m [E2 [D [L [_ R]]]]]]];
      cbn [app length] in E2; change (zlen [s]) with 1 in E2; change (zlen (@nil Z)) with 0 in E2; [contradiction|].
    rewrite E2. cbn [bind app] in *. pose proof (zlen_nonneg got). assert (E16 : u16 (1 + zlen got) = zlen (s :: got)) by (rewrite zlen_cons; unfold u16; apply Z.mod_small; lia). rewrite E16.
    rewrite overwrite_next by (rewrite zlen_cons; lia). discriminate.
  - split; [discriminate|]. intros K. destruct (K k F) as [_ K2]. specialize (K2 A). cbn [Nat.add] in B. lia.
Qed.
Print Assumptions C48_between_running_iff.
(** too small buffers: with the memory exactly as large as the stated size it writes outside *)
Theorem C48_too_small : forall fuel timed old e t, (1 <= fuel)%nat -> ardReceiveUntil fuel timed old [] 0 e t = UB.
Proof.
  intros [|fuel] timed old e t H; [lia|]. unfold ardReceiveUntil. change (u32 (0 - 1)) with 4294967295. cbn [readBytesUntil].
  change (0 <? 4294967295) with true. cbv iota. destruct (timed O _) as [c|]; [destruct (c =? e)|]; reflexivity.
Qed.
Print Assumptions C48_too_small.
(** a start byte is request number [k], in time, and the buffer has no room for two bytes *)
Theorem C48_between_too_small : forall fuel ticks rx timed old mem size s e t k,
  0 <= size < 2 -> zlen mem = size -> (k < fuel)%nat -> rx k = Some s -> (forall i, (i < k)%nat -> rx i <> Some s) ->
  (t <> 0 -> forall i, (i <= k)%nat -> ticks (S i) < deadline ticks t) ->
  ardReceiveBetween fuel ticks rx timed old mem size s e t = UB.
Proof.
  intros fuel ticks rx timed old mem size s e t k Hs Hm Hk Hrx Hno Hck. unfold ardReceiveBetween. change (u32 (ticks O + t)) with (deadline ticks t).
  assert (F : exists nt nr, searchLoop fuel ticks rx s t (deadline ticks t) 1 0 = Ok (true, nt, nr)).
  { destruct (search_loop ticks rx s t (deadline ticks t) fuel 1 0) as [[_ R]|[j [_ [R [[E _]|[_ [A B]]]]]]].
    - destruct (R k Hk) as [R1 _]. contradiction.
    - eexists. eexists. exact E.
    - exfalso. destruct (Nat.le_gt_cases j k) as [J|J].
      + specialize (Hck A j J). cbn [Nat.add] in B. lia.
      + destruct (R k J) as [R1 _]. contradiction. }
  destruct F as [nt [nr E]]. destruct fuel as [|fuel]; [lia|]. rewrite E. cbn [bind].
  destruct mem as [|x [|y mem]]; [reflexivity| |rewrite !zlen_cons in Hm; pose proof (zlen_nonneg mem); lia].
  change (zlen [x]) with 1 in Hm. subst size. change (wr [x] 0 (u8 s)) with (Ok [u8 s]). cbn [bind]. change (u32 (1 - 1 - 1)) with 4294967295. cbn [readBytesUntil].
  change (0 <? 4294967295) with true. cbv iota. destruct (timed O _) as [c|]; [destruct (c =? e)|]; reflexivity.
Qed.
Print Assumptions C48_between_too_small.
Theorem C48_send : forall old written buffer size t,
  0 <= size <= zlen buffer -> 0 <= t ->
  exists calls, ardSend old written buffer size t = Ok (written mod 65536, calls) /\
    calls = (if t =? 0 then [] else [SetTimeout t]) ++ [Write (firstn (Z.to_nat size) buffer); FlushTx; SetTimeout old].
Proof.
  intros old written buffer size t Hs Ht. unfold ardSend, rd_slice. replace (inb (zlen buffer) 0 size) with true by (symmetry; apply inb_true; lia). cbn [bind].
  eexists. split; [reflexivity|]. replace (0 <? t) with (negb (t =? 0)) by lia. destruct (t =? 0); reflexivity.
Qed.
Print Assumptions C48_send.
Example C48_case :
  let src := [Some 7; Some 8; Some 13; Some 9] in
  ardReceiveUntil 10 (fun n _ => nth n src None) 1000 [0; 0; 0; 0; 0] 5 13 50 = Ok (mkArd [7; 8; 13; 0; 0] 3 1000 0 0 3) /\
  ardReceiveBetween 10 (fun n => Z.of_nat n) (fun n => nth n [None; Some 4; Some 2] None) (fun n _ => nth n src None) 1000 [0; 0; 0; 0; 0] 5 2 13 50
    = Ok (mkArd [2; 7; 8; 13; 0] 4 1000 4 3 3) /\
  ardReceive 10 (fun n => Z.of_nat n) (fun n => nth n src None) [0; 0; 0] 2 100 = Ok ([7; 8; 0], 2, 4%nat, 2%nat).
Proof. repeat split. Qed.

(** C49: deadlines and the wrap of the counter (for light sleep see C56). *)
Theorem C49_esp_wrap : forall fuel ticks rx mem size e t,
  clock ticks -> 0 < size < 65536 -> 0 < t < 65536 -> 4294967296 <= ticks O + t -> ticks O <= ticks 1%nat ->
  espReceiveUntil (S fuel) ticks rx mem size e t = Ok (mkOut mem 0 2 0 []).
Proof.
  intros fuel ticks rx mem size e t Hck Hs Ht Hw H1. unfold espReceiveUntil. cbn [untilLoop].
  assert (HD : u32 (ticks O + t) = ticks O + t - 4294967296).
  { unfold u32. pose proof (Hck O). replace (ticks O + t) with (ticks O + t - 4294967296 + 1 * 4294967296) at 1 by lia. rewrite Z.mod_add by lia. apply Z.mod_small. lia. }
  replace (0 <? size) with true by lia. replace (t =? 0) with false by lia. rewrite HD. pose proof (Hck O). replace (ticks 1%nat <? ticks O + t - 4294967296) with false by lia. reflexivity.
Qed.
Print Assumptions C49_esp_wrap.
Theorem C49_esp_not_early : forall fuel ticks rx mem size e t o,
  clock ticks -> 0 <= size < 65536 -> size <= zlen mem -> 0 <= t -> ticks O + t < 4294967296 ->
  espReceiveUntil fuel ticks rx mem size e t = Ok o -> ocount o < size -> ~ ends_with e (received rx (reads o)) ->
  t <> 0 /\ ticks O + t <= last_reading ticks (clocks o).
Proof.
  intros fuel ticks rx mem size e t o Hck Hs Hm Ht Hw E Hc He.
  destruct (C46_until fuel ticks rx mem size e t Hck Hs Hm) as [K|[o' [E' [_ [_ [_ [_ R]]]]]]]; [congruence|]. assert (o' = o) by congruence. subst o'.
  destruct R as [R|[R|[R1 R2]]]; [contradiction|lia|]. split; [exact R1|]. unfold deadline in R2. pose proof (Hck O). rewrite Z.mod_small in R2 by lia. exact R2.
Qed.
Print Assumptions C49_esp_not_early.
Theorem C49_arduino_wrap : forall fuel ticks rx mem size t,
  clock ticks -> 0 <= t < 65536 -> 4294967296 <= ticks O + t -> ticks O <= ticks 1%nat ->
  ardReceive (S fuel) ticks rx mem size t = Ok (mem, 0, 2%nat, O).
Proof.
  intros fuel ticks rx mem size t Hck Ht Hw H1. unfold ardReceive. cbn [receiveLoop].
  assert (HD : u32 (ticks O + t) = ticks O + t - 4294967296).
  { unfold u32. pose proof (Hck O). replace (ticks O + t) with (ticks O + t - 4294967296 + 1 * 4294967296) at 1 by lia. rewrite Z.mod_add by lia. apply Z.mod_small. lia. }
  rewrite HD. pose proof (Hck O). replace (ticks 1%nat <? ticks O + t - 4294967296) with false by lia. reflexivity.
Qed.
Print Assumptions C49_arduino_wrap.
Theorem C49_arduino_not_early : forall fuel ticks rx mem size t m c n k,
  clock ticks -> byte_source rx -> 0 <= size < 65536 -> size <= zlen mem -> 0 <= t -> ticks O + t < 4294967296 ->
  ardReceive fuel ticks rx mem size t = Ok (m, c, n, k) -> c < size -> ticks O + t <= last_reading ticks n.
Proof.
  intros fuel ticks rx mem size t m c n k Hck Hb Hs Hm Ht Hw E Hc.
  destruct (C48_receive fuel ticks rx mem size t Hb Hs Hm) as [K|[n' [k' [E' [_ R]]]]]; [congruence|]. rewrite E in E'. apply Ok_inj in E'. injection E' as -> -> -> ->.
  destruct R as [R|R]; [lia|]. unfold deadline in R. pose proof (Hck O). rewrite Z.mod_small in R by lia. exact R.
Qed.
Print Assumptions C49_arduino_not_early.
Example C49_case :
  let ticks := fun n => Z.min 4294967295 (4294967200 + Z.of_nat n) in
  clock ticks /\ 4294967296 <= ticks O + 200 /\ ticks O <= ticks 1%nat /\
  espReceiveUntil 5 ticks (fun _ => Some 65) [0; 0; 0] 3 13 200 = Ok (mkOut [0; 0; 0] 0 2 0 []).
Proof. cbv zeta. split; [intros n; lia|]. split; [lia|]. split; [lia|reflexivity]. Qed.

(** C57: results of the driver. *)
Theorem C57_counts : forall r size, 0 <= size < 65536 -> -1 <= r <= size ->
  espReceive r = (if r =? -1 then 65535 else r) /\ espSend r = (if r =? -1 then 65535 else r) /\
  (snd (sendBlocking r) = true <-> 0 < r).
Proof.
  intros r size Hs Hr. unfold espReceive, espSend, sendBlocking, u16. cbn [fst snd]. destruct (Z.eqb_spec r (-1)) as [->|H].
  - split; [reflexivity|]. split; [reflexivity|]. cbn. split; [discriminate|lia].
  - rewrite Z.mod_small by lia. split; [reflexivity|]. split; [reflexivity|]. lia.
Qed.
Print Assumptions C57_counts.
(** so an error looks like a count larger than the buffer *)
Theorem C57_bounded_refuted : exists r size, 0 <= size < 65536 /\ -1 <= r <= size /\ size < espReceive r.
Proof. exists (-1), 10. repeat split; lia. Qed.
Print Assumptions C57_bounded_refuted.
(** the wait handed to the driver is the largest number of ticks not longer than the request *)
Theorem C57_wait : forall tick ms, 0 < tick -> 0 <= ms ->
  tick * delayTicks tick ms <= ms < tick * (delayTicks tick ms + 1).
Proof. intros tick ms Ht Hm. unfold delayTicks. pose proof (Z.mul_div_le ms tick Ht). pose proof (Z.mul_succ_div_gt ms tick Ht). lia. Qed.
Print Assumptions C57_wait.
Example C57_case : espReceive (-1) = 65535 /\ espSend 20 = 20 /\ delayTicks 10 19 = 1.
Proof. repeat split. Qed.
