(** Properties C50-C52 (SPI). *)
From Verif Require Import Base S_Spi M_SpiArduino M_SpiEsp S_SpiEsp L_Spi.

(** C50: Arduino. *)
Theorem C50_send : forall slave fill inp n mem log, 0 <= inp -> 0 <= n -> inp + n <= zlen mem ->
  exists received, answers Byte slave (log ++ [Begin]) (slice mem inp n) received /\
    sendSync slave fill inp n (mem, log) = Ok (true, (mem, log ++ [Begin] ++ events Byte (slice mem inp n) received ++ [End])).
Proof.
  intros slave fill inp n mem log Hi Hn Hm. unfold sendSync, spiTransfer. destruct (write_spec slave fill inp n mem (log ++ [Begin]) Hi Hn Hm) as [rs [A E]].
  exists rs. split; [exact A|]. rewrite E. cbn [bind]. rewrite <- !app_assoc. reflexivity.
Qed.
Print Assumptions C50_send.
Theorem C50_receive : forall slave fill out n mem log, 0 <= out -> 0 <= n -> out + n <= zlen mem ->
  let sent := repeat fill (Z.to_nat (n - n mod 4)) ++ repeat 255 (Z.to_nat (n mod 4)) in
  exists received, answers Byte slave (log ++ [Begin]) sent received /\ zlen received = n /\
    receiveSync slave fill out n (mem, log) = Ok (true, (blit mem out received, log ++ [Begin] ++ events Byte sent received ++ [End])).
Proof.
  intros slave fill out n mem log Ho Hn Hm sent. unfold receiveSync, spiTransfer. destruct (read_spec slave fill out n mem (log ++ [Begin]) Ho Hn Hm) as [rs [A E]].
  destruct (quarters n Hn) as [Q [Q1 [Q2 _]]]. subst sent. replace (n - n mod 4) with (n / 4 * 4) by lia.
  exists rs. split; [exact A|]. split; [apply answers_len in A; rewrite zlen_app, !zlen_repeat in A; lia|]. rewrite E. cbn [bind]. rewrite <- !app_assoc. reflexivity.
Qed.
Print Assumptions C50_receive.
(** full duplex; the two buffers may be the same one *)
Theorem C50_exchange : forall slave fill inp out n mem log,
  0 <= inp -> 0 <= out -> 0 <= n -> inp + n <= zlen mem -> out + n <= zlen mem -> same_or_apart inp out n ->
  exists received, answers Byte slave (log ++ [Begin]) (slice mem inp n) received /\ zlen received = n /\
    sendAndReceive slave fill inp out n (mem, log)
      = Ok (true, (blit mem out received, log ++ [Begin] ++ events Byte (slice mem inp n) received ++ [End])).
Proof.
  intros slave fill inp out n mem log Hi Ho Hn Hmi Hmo Hs. unfold sendAndReceive, spiTransfer.
  destruct (readAndWrite_spec slave fill inp out n mem (log ++ [Begin]) Hi Ho Hn Hmi Hmo Hs) as [rs [A E]].
  exists rs. split; [exact A|]. split; [apply answers_len in A; rewrite zlen_slice in A by lia; exact A|]. rewrite E. cbn [bind]. rewrite <- !app_assoc. reflexivity.
Qed.
Print Assumptions C50_exchange.
(** two null pointers: an empty transaction *)
Theorem C50_nothing : forall slave fill n mem log, spiTransfer slave fill None None n (mem, log) = Ok (true, (mem, log ++ [Begin; End])).
Proof. intros slave fill n mem log. unfold spiTransfer. cbn [bind]. rewrite <- app_assoc. reflexivity. Qed.
Print Assumptions C50_nothing.
(** an echoing slave, six bytes in place *)
Example C50_case :
  let slave := fun (log : list busEvent) b => b + Z.of_nat (length log) in
  sendAndReceive slave 0 1 1 6 ([9; 1; 2; 3; 4; 5; 6; 9], [])
    = Ok (true, ([9; 2; 4; 6; 8; 10; 12; 9], [Begin; Byte 1 2; Byte 2 4; Byte 3 6; Byte 4 8; Byte 5 10; Byte 6 12; End])) /\
  same_or_apart 1 1 6 /\
  receiveSync slave 0 0 5 ([9; 9; 9; 9; 9; 9], []) = Ok (true, ([1; 2; 3; 4; 4; 9], [Begin; Byte 0 1; Byte 0 2; Byte 0 3; Byte 0 4; Byte 255 4; End])).
Proof. split; [reflexivity|]. split; [left; reflexivity|reflexivity]. Qed.

(** C51: ESP32. *)
Theorem C51_transfer : forall drv m mem send recv n fuel,
  (recv <> None -> stores_properly drv) -> 0 < m -> 8 * m < 4294967296 -> 0 <= n -> fits mem send recv n -> (count n m < fuel)%nat ->
  let ok j := accepted (answer drv mem send recv n m j) in
  let memory k := match recv with Some r => blit mem r (stored_bytes drv mem send recv n m k) | None => mem end in
  let done k := fst (first_transactions drv mem send recv n m k) in
  ((forall j, (j < count n m)%nat -> ok j = true) /\
   espTransfer fuel drv m mem send recv n = Ok (true, memory (count n m), done (count n m)) /\
   (recv <> None -> zlen (stored_bytes drv mem send recv n m (count n m)) = n)) \/
  (exists k, (k < count n m)%nat /\ (forall j, (j < k)%nat -> ok j = true) /\ ok k = false /\
   espTransfer fuel drv m mem send recv n = Ok (false, memory (S k), done (S k)) /\
   (recv <> None -> zlen (stored_bytes drv mem send recv n m (S k)) <= cut n m (S k))).
Proof.
  intros drv m mem send recv n fuel Hd Hm Hm8 Hn Hf Hfu ok memory done.
  pose proof (transfer_loop drv m mem send recv n Hd Hm Hm8 Hn Hf fuel 0 ltac:(lia) ltac:(lia) (fun i Hi => ltac:(lia))) as T. cbv zeta in T. rewrite cut_0 in T by exact Hn.
  assert (M0 : match recv with Some r => blit mem r (stored_bytes drv mem send recv n m 0) | None => mem end = mem) by (clear; destruct recv; [apply (blit_nil mem)|reflexivity]). rewrite M0 in T.
  replace (match send with Some s => Some (s + 0) | None => None end) with send in T by (clear; destruct send; [rewrite Z.add_0_r|]; reflexivity).
  replace (match recv with Some s => Some (s + 0) | None => None end) with recv in T by (clear; destruct recv; [rewrite Z.add_0_r|]; reflexivity).
  rewrite Z.sub_0_r in T. change (first_transactions drv mem send recv n m 0) with (@nil transaction, 0) in T. cbn [fst snd] in T. fold (espTransfer fuel drv m mem send recv n) in T.
  destruct T as [[A [B C]]|[k [A [B [C [D E]]]]]]; [destruct recv; [reflexivity|exact I]| |].
  - left. split; [exact A|]. split; [exact B|]. intros H. destruct recv; [exact C|congruence].
  - right. exists k. split; [exact A|]. split; [exact B|]. split; [exact C|]. split; [exact D|]. intros H. destruct recv; [exact E|congruence].
Qed.
Print Assumptions C51_transfer.
(** the pieces: none empty, none longer than the maximum, together the whole buffer, and as few as
    possible *)
Theorem C51_pieces : forall n m, 0 <= n -> 0 < m ->
  (forall j, (j < count n m)%nat -> 0 < cut n m (S j) - cut n m j <= m) /\ cut n m 0 = 0 /\ cut n m (count n m) = n /\
  (0 < n -> m * (Z.of_nat (count n m) - 1) < n) /\ n <= m * Z.of_nat (count n m).
Proof.
  intros n m Hn Hm. split; [intros j Hj; apply count_spec in Hj; [|assumption|assumption]; rewrite cut_step by assumption; unfold cut; lia|].
  split; [apply cut_0; exact Hn|]. split; [apply cut_count; assumption|]. split.
  - intros Hp. destruct (count n m) as [|k] eqn:E; [replace (m * (Z.of_nat 0 - 1)) with (- m) by lia; lia|]. assert (K : (k < count n m)%nat) by lia. apply count_spec in K; [|assumption|assumption].
    replace (Z.of_nat (S k) - 1) with (Z.of_nat k) by lia. exact K.
  - pose proof (cut_count n m Hn Hm) as C. unfold cut in C. lia.
Qed.
Print Assumptions C51_pieces.
Theorem C51_sent : forall drv mem s recv n m k, 0 <= n -> 0 < m -> 0 <= s ->
  concat (map (fun tr => match txData tr with Some d => d | None => [] end) (fst (first_transactions drv mem (Some s) recv n m k))) = slice mem s (cut n m k).
Proof.
  intros drv mem s recv n m k Hn Hm Hs. induction k as [|k IH]; [rewrite cut_0 by exact Hn; reflexivity|].
  rewrite first_S. cbn [fst]. rewrite map_app, concat_app, IH. cbn [map concat piece_transaction txData]. rewrite app_nil_r.
  pose proof (cut_range n m k Hn Hm). pose proof (cut_step n m k Hn Hm). rewrite <- slice_app_split by lia. replace (cut n m k + (cut n m (S k) - cut n m k)) with (cut n m (S k)) by lia. reflexivity.
Qed.
Print Assumptions C51_sent.
(** the lengths announced for an absent receive buffer are 0 if the driver leaves the structure alone *)
Theorem C51_lengths : forall drv mem send recv n m k, recv <> None \/ leaves_length drv ->
  fst (first_transactions drv mem send recv n m k) = map (piece_transaction mem send recv n m 0) (seq 0 k).
Proof.
  intros drv mem send recv n m k H.
  assert (T : forall j, piece_transaction mem send recv n m (snd (first_transactions drv mem send recv n m j)) j = piece_transaction mem send recv n m 0 j).
  { destruct recv as [r|]; [reflexivity|]. destruct H as [H|H]; [congruence|].
    assert (Z0 : forall j, snd (first_transactions drv mem send None n m j) = 0); [|intros j; rewrite Z0; reflexivity].
    induction j as [|j IH]; [reflexivity|]. rewrite first_S. cbn [snd]. rewrite answer_eq, H. exact IH. }
  induction k as [|k IH]; [reflexivity|]. rewrite first_S. cbn [fst]. rewrite T, IH, seq_S, map_app. reflexivity.
Qed.
Print Assumptions C51_lengths.
(** a driver as ESP-IDF in full duplex: sending alone succeeds exactly if there is one piece at most or
    the last piece is as long as the others; otherwise all but the last piece are sent and the last is
    refused, since it carries the receive length the driver left for the first one *)
Theorem C51_full_duplex_send : forall drv m mem s n fuel,
  as_full_duplex drv -> 0 < m -> 8 * m < 4294967296 -> 0 <= n -> fits mem (Some s) None n -> (count n m < fuel)%nat ->
  espTransfer fuel drv m mem (Some s) None n = Ok ((n <=? m) || (n mod m =? 0), mem,
    map (fun j => piece_transaction mem (Some s) None n m (if Nat.eqb j 0 then 0 else 8 * m) j) (seq 0 (count n m))).
Proof.
  intros drv m mem s n fuel Hf Hm Hm8 Hn Hfit Hfu.
  set (tr := fun j => piece_transaction mem (Some s) None n m (if Nat.eqb j 0 then 0 else 8 * m) j).
  assert (Size : forall j, (S j < count n m)%nat -> cut n m (S j) - cut n m j = m).
  { intros j Hj. apply (count_spec n m Hn Hm) in Hj. unfold cut. nia. }
  assert (Pos : forall j, (j < count n m)%nat -> 0 < cut n m (S j) - cut n m j) by (intros j Hj; apply C51_pieces; assumption).
  assert (First : forall k, (k < count n m)%nat -> first_transactions drv mem (Some s) None n m k = (map tr (seq 0 k), if Nat.eqb k 0 then 0 else 8 * m)).
  { induction k as [|k IH]; intros Hk; [reflexivity|]. rewrite first_S, answer_eq, IH by lia. cbn [fst snd Nat.eqb]. fold (tr k). rewrite seq_S, map_app. f_equal.
    destruct (Hf (map tr (seq 0 k)) (tr k)) as [_ L]. unfold tr in *. unfold piece_transaction in *. cbn [rxBits lengthBits] in L. rewrite Size in * by exact Hk.
    destruct k as [|k]; cbn [Nat.eqb] in *; rewrite L by lia; [reflexivity|]. destruct (8 * m =? 0); reflexivity. }
  assert (Ok_ : forall j, (j < count n m)%nat -> accepted (answer drv mem (Some s) None n m j) = (Nat.eqb j 0 || (m * Z.of_nat (S j) <=? n))).
  { intros j Hj. rewrite answer_eq, First by exact Hj. cbn [fst snd]. fold (tr j). destruct (Hf (map tr (seq 0 j)) (tr j)) as [-> _].
    unfold tr, piece_transaction. cbn [rxBits lengthBits]. pose proof (Pos j Hj) as P. destruct j as [|j]; cbn [Nat.eqb orb]; [lia|].
    apply (count_spec n m Hn Hm) in Hj. unfold cut in P |- *. rewrite (Nat2Z.inj_succ (S j)) in P |- *. rewrite Z.mul_succ_r in P |- *. clear - P Hj Hm. set (a := m * Z.of_nat (S j)) in *. lia. }
  assert (All : forall k, (k < count n m)%nat -> fst (first_transactions drv mem (Some s) None n m (S k)) = map tr (seq 0 (S k))).
  { intros k Hk. rewrite first_S, First by exact Hk. cbn [fst snd]. fold (tr k). rewrite seq_S, map_app. reflexivity. }
  pose proof (count_spec n m Hn Hm) as Hc.
  destruct (C51_transfer drv m mem (Some s) None n fuel ltac:(congruence) Hm Hm8 Hn Hfit Hfu) as [[A [B _]]|[k [A [B [C [D _]]]]]].
  - rewrite B. replace ((n <=? m) || (n mod m =? 0)) with true.
    + destruct (count n m) as [|k] eqn:Ec; [reflexivity|]. rewrite All by lia. reflexivity.
    + symmetry. apply orb_true_iff. destruct (Z.leb_spec n m) as [H|H]; [left; reflexivity|right]. apply Z.eqb_eq.
      destruct (count n m) as [|k] eqn:Ec; [specialize (Hc O); change (Z.of_nat 0) with 0 in Hc; lia|]. specialize (A k ltac:(lia)). rewrite Ok_ in A by lia.
      pose proof (Hc (S k)) as K1. pose proof (Hc 1%nat) as K2. change (Z.of_nat 1) with 1 in K2. destruct k as [|k]; [lia|]. cbn [Nat.eqb orb] in A. apply Z.leb_le in A.
      assert (K3 : ~ m * Z.of_nat (S (S k)) < n) by (intros K3; apply Hc in K3; lia). assert (E : n = Z.of_nat (S (S k)) * m) by lia. rewrite E. apply Z.mod_mul. lia.
  - rewrite Ok_ in C by exact A. apply orb_false_iff in C. destruct C as [C1 C2]. apply Nat.eqb_neq in C1. apply Z.leb_gt in C2.
    pose proof (proj1 (Hc k) A) as K. assert (E : count n m = S k) by (specialize (Hc (S k)); lia). rewrite E, D, All by exact A.
    replace ((n <=? m) || (n mod m =? 0)) with false; [reflexivity|]. symmetry. apply orb_false_iff. split; [apply Z.leb_gt; nia|]. apply Z.eqb_neq. intros Z0.
    apply Z.div_exact in Z0; [|lia]. rewrite Z0 in K, C2. apply Z.mul_lt_mono_pos_l in K; [|exact Hm]. apply Z.mul_lt_mono_pos_l in C2; [|exact Hm]. lia.
Qed.
Print Assumptions C51_full_duplex_send.
(** before init the piece size is zero: with a driver that accepts empty transactions it never ends,
    otherwise it fails at once *)
Theorem C51_no_init : forall drv mem send recv n fuel, 0 < n -> fits mem send recv n -> stores_properly drv ->
  (forall log tr, accepted (drv log tr) = true) -> espTransfer fuel drv (maxTransferSize newBus) mem send recv n = Fuel.
Proof.
  change (maxTransferSize newBus) with 0.
  intros drv mem send recv n fuel Hn Hf Hd Hok. unfold espTransfer. generalize (@nil transaction) as log. generalize 0 at 2 as rx. induction fuel as [|fuel IH]; intros rx log; [reflexivity|].
  cbn [transferLoop]. replace (0 <? n) with true by lia. replace (Z.min n 0) with 0 by lia. change (u32 (8 * 0)) with 0. destruct Hf as [Fs [Fr Fsr]].
  assert (Etx : match send with Some s => do d <- rd_slice mem s 0; Ok (Some d, 0) | None => Ok (None, 0) end = Ok (match send with Some _ => Some [] | None => None end, 0)).
  { destruct send as [s|]; [|reflexivity]. rewrite rd_slice_ok by lia. reflexivity. }
  rewrite Etx. cbn [bind fst snd]. set (tr := mkTr _ _ _ _). rewrite Hok.
  assert (Ew : match recv with Some r => wr_slice mem r (received (drv log tr)) | None => Ok mem end = Ok mem).
  { destruct recv as [r|]; [|reflexivity]. destruct (Hd log tr 0) as [H1 _]; [discriminate|lia|reflexivity|]. pose proof (zlen_nonneg (received (drv log tr))).
    rewrite (zlen_0 (received (drv log tr))) by lia. rewrite wr_slice_ok by (change (zlen (@nil Z)) with 0; lia). rewrite blit_nil. reflexivity. }
  rewrite Ew. cbn [bind]. replace (match send with Some s => Some (s + 0) | None => None end) with send by (destruct send; [rewrite Z.add_0_r|]; reflexivity).
  replace (match recv with Some s => Some (s + 0) | None => None end) with recv by (destruct recv; [rewrite Z.add_0_r|]; reflexivity). rewrite Z.sub_0_r. apply IH.
Qed.
Print Assumptions C51_no_init.
Theorem C51_no_init_rejected : forall drv mem send recv n fuel, 0 < n -> fits mem send recv n -> stores_properly drv ->
  (forall tr, accepted (drv [] tr) = false) ->
  espTransfer (S fuel) drv (maxTransferSize newBus) mem send recv n = Ok (false, mem, [mkTr (match send with Some _ => Some [] | None => None end) 0 recv 0]).
Proof.
  change (maxTransferSize newBus) with 0.
  intros drv mem send recv n fuel Hn [Fs [Fr _]] Hd Hno. unfold espTransfer. cbn [transferLoop]. replace (0 <? n) with true by lia. replace (Z.min n 0) with 0 by lia.
  set (tx := match send with Some _ => Some [] | None => None end).
  match goal with |- bind ?t _ = _ => replace t with (@Ok (option (list Z) * Z) (tx, 0))
    by (destruct send as [s|]; [rewrite rd_slice_ok by lia; unfold tx; reflexivity|reflexivity]) end.
  cbn [bind fst snd].
  replace (match recv with Some _ => u32 (8 * 0) | None => 0 end) with 0 by (destruct recv; reflexivity).
  rewrite Hno. destruct recv as [r|]; [|reflexivity]. destruct (Hd [] (mkTr tx 0 (Some r) 0) 0) as [H1 _]; [discriminate|lia|reflexivity|]. pose proof (zlen_nonneg (received (drv [] (mkTr tx 0 (Some r) 0)))).
  rewrite (zlen_0 (received (drv [] (mkTr tx 0 (Some r) 0)))) by lia. rewrite wr_slice_ok by (change (zlen (@nil Z)) with 0; lia). rewrite blit_nil. reflexivity.
Qed.
Print Assumptions C51_no_init_rejected.
(** receive-only transfers announce a transmit length of 0: a driver that wants the receive length
    within the transmit length (ESP-IDF in full duplex) rejects every one of them *)
Theorem C51_receive_only : forall drv m mem r n fuel,
  stores_properly drv -> 0 < m -> 8 * m < 4294967296 -> 0 < n -> fits mem None (Some r) n -> (count n m < fuel)%nat ->
  (forall log tr, lengthBits tr < rxBits tr -> accepted (drv log tr) = false /\ received (drv log tr) = []) ->
  espTransfer fuel drv m mem None (Some r) n = Ok (false, mem, [mkTr None 0 (Some r) (8 * Z.min n m)]).
Proof.
  intros drv m mem r n fuel Hd Hm Hm8 Hn Hf Hfu Hrej.
  assert (E0 : forall x, piece_transaction mem None (Some r) n m x 0 = mkTr None 0 (Some r) (8 * Z.min n m)).
  { intros x. unfold piece_transaction. rewrite cut_0 by lia. rewrite Z.add_0_r. replace (cut n m 1 - 0) with (Z.min n m) by (unfold cut; lia). reflexivity. }
  destruct (Hrej [] (mkTr None 0 (Some r) (8 * Z.min n m)) ltac:(cbn [lengthBits rxBits]; lia)) as [R1 R2].
  assert (A0 : answer drv mem None (Some r) n m 0 = drv [] (mkTr None 0 (Some r) (8 * Z.min n m))) by (unfold answer; cbn [first_transactions]; rewrite E0; reflexivity).
  destruct (C51_transfer drv m mem None (Some r) n fuel (fun _ => Hd) Hm Hm8 ltac:(lia) Hf Hfu) as [[A _]|[k [A [B [C [D _]]]]]].
  - assert (K : (0 < count n m)%nat) by (apply count_spec; lia). specialize (A O K). rewrite A0, R1 in A. discriminate.
  - destruct k as [|k]; [|specialize (B O ltac:(lia)); rewrite A0, R1 in B; discriminate]. rewrite D. unfold stored_bytes. cbn [seq map concat first_transactions]. rewrite A0, R2, E0. cbn [fst app]. rewrite blit_nil. reflexivity.
Qed.
Print Assumptions C51_receive_only.
Example C51_case :
  let data := fun tr => if (0 <? rxBits tr) then repeat 7 (Z.to_nat (rxBits tr / 8)) else [] in
  espTransfer 9 (fun log tr => mkReply true (data tr) 3) 4 [1; 2; 3; 4; 5; 6; 7; 8; 9; 10; 0] (Some 0) (Some 0) 10
    = Ok (true, repeat 7 10 ++ [0], [mkTr (Some [1; 2; 3; 4]) 32 (Some 0) 32; mkTr (Some [5; 6; 7; 8]) 32 (Some 4) 32; mkTr (Some [9; 10]) 16 (Some 8) 16]) /\
  fits [1; 2; 3; 4; 5; 6; 7; 8; 9; 10; 0] (Some 0) (Some 0) 10 /\
  espTransfer 9 (fun log tr => mkReply (Nat.ltb (length log) 2) (data tr) (rxBits tr)) 4 [1; 2; 3; 4; 5; 6; 7; 8; 9; 10; 0] (Some 0) None 10
    = Ok (false, [1; 2; 3; 4; 5; 6; 7; 8; 9; 10; 0], [mkTr (Some [1; 2; 3; 4]) 32 None 0; mkTr (Some [5; 6; 7; 8]) 32 None 0; mkTr (Some [9; 10]) 16 None 0]) /\
  count 10 4 = 3%nat.
Proof. repeat split; try reflexivity; try (cbn; lia). left. reflexivity. Qed.
Example C51_full_duplex_case :
  let drv := fun (log : list transaction) tr => mkReply (rxBits tr <=? lengthBits tr) (repeat 7 (Z.to_nat (rxBits tr / 8))) (if rxBits tr =? 0 then lengthBits tr else rxBits tr) in
  as_full_duplex drv /\ stores_properly drv /\
  espTransfer 9 drv 4 [1; 2; 3; 4; 5; 6; 7; 8; 9; 10] (Some 0) None 10
    = Ok (false, [1; 2; 3; 4; 5; 6; 7; 8; 9; 10], [mkTr (Some [1; 2; 3; 4]) 32 None 0; mkTr (Some [5; 6; 7; 8]) 32 None 32; mkTr (Some [9; 10]) 16 None 32]) /\
  espTransfer 9 drv 4 [1; 2; 3; 4; 5; 6; 7; 8] (Some 0) None 8
    = Ok (true, [1; 2; 3; 4; 5; 6; 7; 8], [mkTr (Some [1; 2; 3; 4]) 32 None 0; mkTr (Some [5; 6; 7; 8]) 32 None 32]).
Proof.
  split; [split; reflexivity|]. split; [|split; reflexivity]. intros log tr n _ Hn E. cbn [received accepted]. rewrite E, Z.mul_comm, Z.div_mul by lia. rewrite zlen_repeat. split; lia.
Qed.
(** drivers as in the hypotheses of C51_no_init and C51_receive_only *)
Example C51_drivers :
  let data := fun tr => repeat 7 (Z.to_nat (rxBits tr / 8)) in
  stores_properly (fun log tr => mkReply true (data tr) 0) /\ stores_properly (fun log tr => mkReply false [] 0) /\
  stores_properly (fun log tr => if rxBits tr <=? lengthBits tr then mkReply true (data tr) 0 else mkReply false [] 0) /\
  fits [1; 2; 3] None (Some 1) 2.
Proof.
  assert (D : forall n, 0 <= n -> zlen (repeat 7 (Z.to_nat (8 * n / 8))) = n) by (intros n Hn; rewrite Z.mul_comm, Z.div_mul by lia; rewrite zlen_repeat; lia).
  split; [|split; [|split; [|repeat split; try lia; unfold zlen; cbn [length]; lia]]]; intros log tr n _ Hn E; [|cbn; split; [lia|discriminate]|]; rewrite E.
  - cbn [received accepted]. rewrite D by exact Hn. split; [lia|reflexivity].
  - destruct (8 * n <=? lengthBits tr); cbn [received accepted]; [rewrite D by exact Hn; split; [lia|reflexivity]|cbn; split; [lia|discriminate]].
Qed.

(** C52: release. *)
Theorem C52_removed : forall k drv h m log, (forall n, succeeds drv n = true) ->
  releases k drv (mkBus (Some h) m) log = (repeat false k, mkBus (Some h) m, log ++ repeat (Remove h) k).
Proof.
  induction k as [|k IH]; intros drv h m log H; [cbn; rewrite app_nil_r; reflexivity|].
  cbn [releases]. unfold busRelease. cbn [spiDevice]. rewrite H. cbn [negb]. rewrite IH by exact H. cbn [repeat]. rewrite <- app_assoc. reflexivity.
Qed.
Print Assumptions C52_removed.
(** one release in full: what is called, what is returned and what is kept *)
Theorem C52_release : forall drv h m log,
  let removed := succeeds drv (length log) in
  busRelease drv (mkBus (Some h) m) log =
    (if removed then (false, mkBus (Some h) m, log ++ [Remove h])
     else (succeeds drv (S (length log)), mkBus None m, log ++ [Remove h; Free])).
Proof.
  intros drv h m log removed. unfold busRelease. cbn [spiDevice maxTransferSize]. fold removed. destruct removed; cbn [negb]; [reflexivity|].
  rewrite app_length. cbn [length]. rewrite Nat.add_1_r, <- app_assoc. reflexivity.
Qed.
Print Assumptions C52_release.
Theorem C52_unused : forall k drv m log, releases k drv (mkBus None m) log = (repeat true k, mkBus None m, log).
Proof. induction k as [|k IH]; intros drv m log; [reflexivity|]. cbn [releases]. unfold busRelease. cbn [spiDevice]. rewrite IH. reflexivity. Qed.
Print Assumptions C52_unused.
(** the whole life of a bus whose driver does everything asked: the bus is initialised but never freed,
    the device is removed once per release and once more by the destructor *)
Theorem C52_life : forall drv chunk sck miso mosi frequency mode k, (forall n, succeeds drv n = true) ->
  let '(ok, b, log) := busInit drv chunk sck miso mosi frequency mode newBus [] in
  let '(rs, b', log') := releases k drv b log in
  ok = true /\ rs = repeat false k /\
  (exists c d, busDestroy drv b' log' = Initialise c :: AddDevice d :: repeat (Remove (handleOf drv 1%nat)) (S k)) /\
  ~ In Free (busDestroy drv b' log').
Proof.
  intros drv chunk sck miso mosi frequency mode k H. unfold busInit, newBus. cbn [spiDevice maxTransferSize length app]. rewrite !H. cbn [negb].
  rewrite C52_removed by exact H. unfold busDestroy, busRelease. cbn [spiDevice]. rewrite H. cbn [negb].
  assert (E : forall c d, ([Initialise c; AddDevice d] ++ repeat (Remove (handleOf drv 1%nat)) k) ++ [Remove (handleOf drv 1%nat)] = Initialise c :: AddDevice d :: repeat (Remove (handleOf drv 1%nat)) (S k)).
  { intros c d. cbn [app]. rewrite <- repeat_cons. reflexivity. }
  rewrite E. split; [reflexivity|]. split; [reflexivity|]. split; [eexists _, _; reflexivity|]. intros [K|[K|K]]; try discriminate. apply repeat_spec in K. discriminate.
Qed.
Print Assumptions C52_life.
(** init asks for the given pins, clock and mode and succeeds exactly if both calls do.  A failed init: the piece size is set although the bus
    cannot be used; if only adding the device failed the bus stays initialised and release does not free
    it *)
Theorem C52_init : forall drv chunk sck miso mosi frequency mode log,
  0 <= chunk < 2147483648 -> 0 <= frequency < 4294967296 ->
  let set_up := Initialise (mkBusConfig mosi miso sck chunk) in
  let clock := if frequency <? 2147483648 then frequency else frequency - 4294967296 in
  let added := AddDevice (mkDeviceConfig clock (match mode with Half => true | Full => false end)) in
  let '(ok, b, log') := busInit drv chunk sck miso mosi frequency mode newBus log in
  maxTransferSize b = chunk /\
  (ok = true <-> succeeds drv (length log) = true /\ succeeds drv (S (length log)) = true) /\
  (ok = true -> spiDevice b = Some (handleOf drv (S (length log))) /\ log' = log ++ [set_up; added]) /\
  (ok = false -> spiDevice b = None /\ busDestroy drv b log' = log' /\
     log' = log ++ (if succeeds drv (length log) then [set_up; added] else [set_up])).
Proof.
  intros drv chunk sck miso mosi frequency mode log Hc Hf. unfold busInit, newBus. cbv zeta. cbn [spiDevice maxTransferSize].
  assert (T : forall z, 0 <= z < 2147483648 -> toInt z = z) by (intros z Hz; unfold toInt, u32; rewrite Z.mod_small by lia; replace (z <? 2147483648) with true by lia; reflexivity).
  rewrite (T chunk Hc). replace (toInt frequency) with (if frequency <? 2147483648 then frequency else frequency - 4294967296) by (unfold toInt, u32; rewrite Z.mod_small by lia; reflexivity).
  cbn [spiDevice maxTransferSize]. destruct (succeeds drv (length log)) eqn:E0; cbn [negb].
  - rewrite <- app_assoc, app_length. cbn [app length]. rewrite Nat.add_1_r. destruct (succeeds drv (S (length log))) eqn:E1.
    + cbv beta iota. split; [reflexivity|]. split; [tauto|]. split; [intros _; split; reflexivity|]. intros; discriminate.
    + cbv beta iota. split; [reflexivity|]. split; [split; [discriminate|intros [_ K]; discriminate]|]. split; [discriminate|]. intros _. repeat split.
  - cbv beta iota. split; [reflexivity|]. split; [split; [discriminate|intros [K _]; discriminate]|]. split; [discriminate|]. intros _. repeat split.
Qed.
Print Assumptions C52_init.
(** a frequency from 2^31 on becomes negative *)
Theorem C52_frequency_refuted : exists frequency, 0 <= frequency < 4294967296 /\
  let '(ok, _, log) := busInit (mkBusDriver (fun _ => true) (fun _ => 1)) 4092 1 2 3 frequency Half newBus [] in
  ok = true /\ exists c d, log = [c; AddDevice d] /\ clockSpeedHz d < 0.
Proof. exists 3000000000. split; [lia|]. cbv. split; [reflexivity|]. eexists _, _. split; reflexivity. Qed.
Print Assumptions C52_frequency_refuted.
Example C52_case :
  let drv := mkBusDriver (fun _ => true) (fun n => 40 + Z.of_nat n) in
  let '(ok, b, log) := busInit drv 4092 18 19 23 4000000 Half newBus [] in
  let '(r, b, log) := busRelease drv b log in
  (ok, r, busDestroy drv b log) = (true, false, [Initialise (mkBusConfig 23 19 18 4092); AddDevice (mkDeviceConfig 4000000 true); Remove 41; Remove 41]).
Proof. reflexivity. Qed.
