(** C75: packets are received one by one. *)
From Verif Require Import Base S_Uart S_Packets M_UartEsp M_UartArduino L_UartEsp L_Packets.

(** ESP32: calls of ReceiveBetween in a row return the packets on the line in order, whatever the noise
    between them and whatever the start bytes inside them, if every byte of the noise is there when it is
    asked for, the packets fit the buffer and no deadline passes. *)
Theorem C75_esp : forall fuel size s e t arrivals clocks rx mem,
  size < 65536 -> size <= zlen mem -> 0 <= t ->
  Forall (arrives s e) arrivals -> Forall2 (on_time t) arrivals clocks ->
  Forall (fun a => zlen (packet s e (abody a)) <= size /\ (length (answers s e a) <= fuel)%nat) arrivals ->
  starts rx (flat_map (answers s e) arrivals) ->
  esp_session fuel clocks rx mem size s e t = Ok (map (fun a => packet s e (abody a)) arrivals).
Proof.
  intros fuel size s e t arrivals clocks rx mem Hsz Hm Ht HA HT. revert rx mem Hm HA. induction HT as [|a ticks arrivals clocks H1 HT IH]; intros rx mem Hm HA HL HS; [reflexivity|].
  cbn [flat_map esp_session map] in *. apply starts_app in HS. destruct HS as [S1 S2]. pose proof (Forall_inv HL) as [L1 L2].
  destruct (esp_packet fuel ticks rx mem size s e t a Hsz Hm Ht (Forall_inv HA) H1 L1 L2 S1) as (o & -> & O1 & O2 & O3). cbn [bind].
  rewrite O1, O2, O3. rewrite (IH (from rx (length (answers s e a)))).
  - cbn [bind]. do 2 f_equal. unfold zlen. rewrite Nat2Z.id. apply firstn_overwritten.
  - rewrite overwritten_len by lia. exact Hm.
  - exact (Forall_inv_tail HA).
  - exact (Forall_inv_tail HL).
  - exact S2.
Qed.
Print Assumptions C75_esp.

(** Arduino: the same, with one exception.  A packet that fills the buffer leaves its end byte on the
    line, where it is noise for the next call — unless start and end byte are the same. *)
Theorem C75_arduino : forall fuel old size s e t pieces clocks mem tail,
  size < 65536 -> size <= zlen mem -> 0 <= t -> is_byte s ->
  Forall (clean s e) pieces -> Forall2 (fun p ticks => in_time t (S (length (fst p))) ticks) pieces clocks ->
  Forall (fun p => zlen (packet s e (snd p)) <= size /\ (length (fst p) + length (snd p) + 1 < fuel)%nat) pieces ->
  (s = e -> Forall (fun p => zlen (packet s e (snd p)) < size) pieces) ->
  (exists l, ard_session fuel old size s e t clocks (line_of s e pieces ++ tail) mem l) /\
  (forall l, ard_session fuel old size s e t clocks (line_of s e pieces ++ tail) mem l -> l = map (fun p => packet s e (snd p)) pieces).
Proof.
  intros fuel old size s e t pieces clocks mem tail Hsz Hm Ht Hs Hc HT HL HE.
  apply (ard_packets fuel old size s e t Hsz Ht Hs pieces clocks [] mem tail Hm Hc); [| |exact HT|left; reflexivity].
  - apply Forall_forall. intros p Hp. rewrite Forall_forall in HL. split; [exact (proj1 (HL p Hp))|]. intros E. specialize (HE E). rewrite Forall_forall in HE. exact (HE p Hp).
  - eapply Forall_impl; [|exact HL]. intros p [_ H]. exact H.
Qed.
Print Assumptions C75_arduino.
(** With one byte for both ends, a packet that fills the buffer makes the next call lose step: the end
    byte is taken for the start of an empty packet, whatever packet follows. *)
Theorem C75_same_byte : forall fuel old size x t b1 b2 mem ticks1 ticks2 tail,
  size < 65536 -> size <= zlen mem -> 0 <= t -> is_byte x -> packet_body x b1 -> zlen (packet x x b1) = size -> (length b1 < fuel)%nat ->
  in_time t 0 ticks1 -> in_time t 0 ticks2 ->
  let line := packet x x b1 ++ packet x x b2 ++ tail in
  (exists l, ard_session fuel old size x x t [ticks1; ticks2] line mem l) /\
  forall l, ard_session fuel old size x x t [ticks1; ticks2] line mem l -> l = [packet x x b1; packet x x []].
Proof.
  intros fuel old size x t b1 b2 mem ticks1 ticks2 tail Hsz Hm Ht Hx Hb Hl Hf T1 T2 line.
  pose proof (fun timed => ard_packet fuel ticks1 timed old line mem size x x t [] b1 (packet x x b2 ++ tail) Hsz Hm Ht Hx (fun K => K) Hb ltac:(lia) T1 Hf eq_refl) as S1.
  rewrite Hl, Z.eqb_refl in S1. cbn [length] in S1.
  set (line2 := packet x x [] ++ b2 ++ [x] ++ tail).
  assert (EL : skipn (1 + length b1) line = line2).
  { unfold line, line2. replace (packet x x b1 ++ packet x x b2 ++ tail) with ((x :: b1) ++ [x] ++ packet x x b2 ++ tail) by (unfold packet; cbn [app]; rewrite <- !app_assoc; reflexivity).
    change (1 + length b1)%nat with (length (x :: b1)). rewrite skipn_app_exact. unfold packet. cbn [app]. rewrite <- app_assoc. reflexivity. }
  set (mem2 := overwritten mem (packet x x b1)) in *. assert (L2 : zlen mem2 = zlen mem) by (unfold mem2; apply overwritten_len; lia).
  assert (H2 : zlen (packet x x []) = 2) by reflexivity.
  assert (Hs2 : 2 <= size) by (rewrite <- Hl; unfold packet; rewrite zlen_cons, zlen_app; change (zlen [x]) with 1; pose proof (zlen_nonneg b1); lia).
  pose proof (fun timed => ard_packet fuel ticks2 timed old line2 mem2 size x x t [] [] (b2 ++ [x] ++ tail) Hsz ltac:(lia) Ht Hx (fun K => K) (fun K => K) ltac:(lia) T2 ltac:(cbn [length]; lia) eq_refl) as S2.
  cbn [length] in S2. set (k := if zlen (packet x x []) =? size then O else 1%nat) in *.
  assert (F : forall m d, firstn (Z.to_nat (zlen d)) (overwritten m d) = d) by (intros m d; unfold zlen; rewrite Nat2Z.id; apply firstn_overwritten).
  assert (F1 : firstn (Z.to_nat size) mem2 = packet x x b1) by (rewrite <- Hl; exact (F mem (packet x x b1))).
  pose proof (F mem2 (packet x x [])) as F2.
  split.
  - exists [packet x x b1; packet x x []].
    destruct (S1 (fun i _ => nth_error line (1 + i))) as [A1 A2]. destruct (A1 ltac:(reflexivity)) as (o & Eo & O1 & O2 & O3). specialize (A2 o Eo).
    destruct (S2 (fun i _ => nth_error line2 (1 + i))) as [B1 B2]. destruct (B1 ltac:(reflexivity)) as (q & Eq & Q1 & Q2 & Q3). specialize (B2 q Eq).
    replace (packet x x b1) with (firstn (Z.to_nat (acount o)) (amem o)) by (rewrite O1, O2; exact F1).
    replace (packet x x []) with (firstn (Z.to_nat (acount q)) (amem q)) by (rewrite Q1, Q2; exact F2).
    econstructor; [exact Eo|intros i T; rewrite A2; reflexivity|]. rewrite A2, O3, O1, EL.
    econstructor; [exact Eq|intros i T; rewrite B2; reflexivity|]. constructor.
  - intros l H. inversion H as [|tk ck ln mm timed o l0 Eo HTm HR]; subst tk ck ln mm l. destruct (S1 timed) as [A1 A2]. specialize (A2 o Eo). rewrite A2 in *.
    destruct (A1 HTm) as (o' & Eo' & O1 & O2 & O3). rewrite Eo in Eo'. apply Ok_inj in Eo'. subst o'.
    rewrite O3, O1, EL in HR.
    inversion HR as [|tk ck ln mm timed2 q l1 Eq HTq HR2]; subst tk ck ln mm l0. destruct (S2 timed2) as [B1 B2]. specialize (B2 q Eq). rewrite B2 in *.
    destruct (B1 HTq) as (q' & Eq' & Q1 & Q2 & Q3). rewrite Eq in Eq'. apply Ok_inj in Eq'. subst q'.
    inversion HR2; subst. rewrite O1, O2, Q1, Q2. fold mem2. rewrite F1, F2. reflexivity.
Qed.
Print Assumptions C75_same_byte.

(** What the Arduino side sends is what the other side receives: packets sent one by one with Send are
    the packets on the line, without noise. *)
Theorem C75_sent : forall s e old t bodies sends,
  0 <= t ->
  Forall2 (fun body (send : list Z * Z * list serialCall) =>
    let '(buffer, written, calls) := send in
    (exists junk, buffer = packet s e body ++ junk) /\ exists r, ardSend old written buffer (zlen (packet s e body)) t = Ok (r, calls)) bodies sends ->
  on_line (flat_map snd sends) = line_of s e (map (fun body => ([], body)) bodies).
Proof.
  intros s e old t bodies sends Ht H. induction H as [|body [[buffer written] calls] bodies sends [[junk EB] [r ES]] H IH]; [reflexivity|].
  cbn [flat_map snd map fst]. unfold on_line in *. rewrite flat_map_app, IH. unfold line_of. cbn [flat_map fst snd app]. f_equal.
  unfold ardSend in ES. destruct (rd_slice buffer 0 (zlen (packet s e body))) as [d| |] eqn:ED; try discriminate. cbn [bind] in ES. apply Ok_inj in ES. injection ES as _ <-.
  assert (Ed : d = packet s e body).
  { rewrite EB in ED. unfold rd_slice in ED. destruct (inb _ _ _); try discriminate. apply Ok_inj in ED. subst d. unfold slice, zlen. rewrite Nat2Z.id.
    cbn [Z.to_nat skipn]. rewrite firstn_app, firstn_all, Nat.sub_diag. cbn [firstn]. apply app_nil_r. }
  rewrite flat_map_app. cbn [flat_map]. rewrite Ed, app_nil_r. destruct (0 <? t); reflexivity.
Qed.
Print Assumptions C75_sent.

(** two packets with noise in front, one of them with the start byte inside, one with a pause *)
Example C75_case :
  let arrivals := [mkArrival [9; 9] [2; 7; 7] [Some 2; None; Some 7; None; Some 7]; mkArrival [3] [] []] in
  Forall (arrives 2 3) arrivals /\ Forall2 (on_time 50) arrivals [(fun i => 100 + 10 * Z.of_nat (Nat.min i 4)); (fun _ => 200)] /\
  esp_session 20 [(fun i => 100 + 10 * Z.of_nat (Nat.min i 4)); (fun _ => 200)] (fun i => nth i (flat_map (answers 2 3) arrivals) None) (repeat 0 8) 6 2 3 50
    = Ok [[2; 2; 7; 7; 3]; [2; 3]] /\
  Forall (clean 2 3) [([9; 3], [2; 7]); ([], [8])] /\
  line_of 2 3 [([9; 3], [2; 7]); ([], [8])] = [9; 3; 2; 2; 7; 3; 2; 8; 3] /\
  in_time 50 2 (fun _ => 10) /\ packet_body 126 [1; 2; 3; 4] /\ zlen (packet 126 126 [1; 2; 3; 4]) = 6.
Proof.
  cbv zeta. split.
  { repeat constructor; cbn [noise abody others]; unfold packet_body; cbn [In]; intuition (try discriminate). }
  split. { repeat constructor; try (intros; cbn [Nat.min]; lia); cbn [others length] in *; intros; lia. }
  split; [reflexivity|]. split; [repeat constructor; cbn [fst snd]; unfold packet_body; cbn [In]; intuition (try discriminate)|].
  split; [reflexivity|]. split; [intros _ i _; unfold deadline; cbn; lia|]. split; [|reflexivity].
  unfold packet_body. cbn [In]. intuition discriminate.
Qed.
