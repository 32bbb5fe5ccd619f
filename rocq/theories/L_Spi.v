(** Lemmas for the SPI properties. *)
From Verif Require Import Base S_Spi M_SpiArduino M_SpiEsp.

Lemma blit_blit {A} (l a b : list A) o :
  0 <= o -> o + zlen a + zlen b <= zlen l -> blit (blit l o a) (o + zlen a) b = blit l o (a ++ b).
Proof.
  intros Ho H. pose proof (zlen_nonneg a). pose proof (zlen_nonneg b).
  destruct (split_at l o ltac:(lia)) as [p [q [-> Hp]]]. rewrite zlen_app in H.
  destruct (split_at q (zlen a) ltac:(lia)) as [x [q' [-> Hx]]]. rewrite zlen_app in H.
  destruct (split_at q' (zlen b) ltac:(lia)) as [y [c [-> Hy]]].
  rewrite <- Hp. rewrite (blit_mid p x a (y ++ c)) by lia.
  replace (zlen p + zlen a) with (zlen (p ++ a)) by (rewrite zlen_app; lia).
  replace (p ++ a ++ y ++ c) with ((p ++ a) ++ y ++ c) by (rewrite <- app_assoc; reflexivity).
  rewrite blit_mid by lia. replace (p ++ x ++ y ++ c) with (p ++ (x ++ y) ++ c) by (rewrite <- app_assoc; reflexivity).
  rewrite blit_mid by (rewrite !zlen_app; lia). rewrite <- !app_assoc. reflexivity.
Qed.
Lemma slice_cons (l : list Z) o n : 0 <= o -> 0 <= n -> o + 1 + n <= zlen l -> slice l o (1 + n) = nthZ l o :: slice l (o + 1) n.
Proof.
  intros Ho Hn H. rewrite slice_app_split by lia. replace (slice l o 1) with [nthZ l o]; [reflexivity|].
  apply list_extZ; [rewrite zlen_slice by lia; reflexivity|]. intros i Hi. change (zlen [nthZ l o]) with 1 in Hi. assert (i = 0) by lia. subst i.
  rewrite nthZ_slice by lia. rewrite Z.add_0_r. reflexivity.
Qed.

Lemma events_nil {E} (pair : Z -> Z -> E) : events pair [] [] = [].
Proof. reflexivity. Qed.
Lemma events_cons {E} (pair : Z -> Z -> E) a b x y : events pair (a :: x) (b :: y) = pair a b :: events pair x y.
Proof. reflexivity. Qed.
Lemma events_app {E} (pair : Z -> Z -> E) a b x y : length a = length b -> events pair (a ++ x) (b ++ y) = events pair a b ++ events pair x y.
Proof.
  revert b. induction a as [|v a IH]; intros [|w b] H; cbn [length] in H; try discriminate; [reflexivity|].
  cbn [app]. rewrite !events_cons. cbn [app]. rewrite IH by lia. reflexivity.
Qed.
Lemma answers_app {E} (pair : Z -> Z -> E) slave s1 r1 s2 r2 past :
  answers pair slave past s1 r1 -> answers pair slave (past ++ events pair s1 r1) s2 r2 -> answers pair slave past (s1 ++ s2) (r1 ++ r2).
Proof.
  revert r1 past. induction s1 as [|b s1 IH]; intros [|r r1] past H1 H2; cbn [answers] in H1; try contradiction.
  - rewrite events_nil, app_nil_r in H2. exact H2.
  - cbn [app answers]. destruct H1 as [Hr H1]. split; [exact Hr|]. apply IH; [exact H1|]. rewrite events_cons in H2. rewrite <- app_assoc. exact H2.
Qed.
Lemma answers_len {E} (pair : Z -> Z -> E) slave s r past : answers pair slave past s r -> zlen r = zlen s.
Proof.
  revert r past. induction s as [|b s IH]; intros [|x r] past H; cbn [answers] in H; try contradiction; [reflexivity|].
  rewrite !zlen_cons. rewrite (IH _ _ (proj2 H)). reflexivity.
Qed.
Lemma answers_len_nat {E} (pair : Z -> Z -> E) slave s r past : answers pair slave past s r -> length s = length r.
Proof. intros H. apply answers_len in H. unfold zlen in H. lia. Qed.

Lemma exchange_spec slave data : forall log, exists rs,
  exchange slave log data = (rs, log ++ events Byte data rs) /\ answers Byte slave log data rs.
Proof.
  induction data as [|b data IH]; intros log.
  - exists []. cbn [exchange]. rewrite events_nil, app_nil_r. split; [reflexivity|exact I].
  - destruct (IH (log ++ [Byte b (u8 (slave log b))])) as [rs [E A]]. exists (u8 (slave log b) :: rs). cbn [exchange]. unfold transferByte. rewrite E. split.
    + rewrite events_cons, <- app_assoc. reflexivity.
    + cbn [answers]. split; [reflexivity|exact A].
Qed.

(** ** Arduino: the three small loops *)
Lemma readCases_spec slave k : forall out mem log, 0 <= out -> out + Z.of_nat k <= zlen mem ->
  exists rs, answers Byte slave log (repeat 255 k) rs /\
    readCases slave k out (mem, log) = Ok (blit mem out rs, log ++ events Byte (repeat 255 k) rs).
Proof.
  induction k as [|k IH]; intros out mem log Ho Hm.
  - exists []. split; [exact I|]. cbn [readCases repeat]. rewrite events_nil, app_nil_r, blit_nil. reflexivity.
  - cbn [readCases]. unfold transferByte. unfold wr. rewrite wr_slice_ok by (change (zlen [u8 (slave log 255)]) with 1; lia). cbn [bind].
    destruct (IH (out + 1) (blit mem out [u8 (slave log 255)]) (log ++ [Byte 255 (u8 (slave log 255))]) ltac:(lia)) as [rs [A E]].
    { rewrite zlen_blit by (change (zlen [u8 (slave log 255)]) with 1; lia). lia. }
    exists (u8 (slave log 255) :: rs). split; [cbn [repeat answers]; split; [reflexivity|exact A]|]. rewrite E. cbn [repeat]. rewrite events_cons, <- app_assoc.
    apply answers_len in A. rewrite zlen_repeat in A. change 1 with (zlen [u8 (slave log 255)]). rewrite blit_blit by (change (zlen [u8 (slave log 255)]) with 1; lia). reflexivity.
Qed.
Lemma writeCases_spec slave k : forall inp mem log, 0 <= inp -> inp + Z.of_nat k <= zlen mem ->
  exists rs, answers Byte slave log (slice mem inp (Z.of_nat k)) rs /\
    writeCases slave k inp (mem, log) = Ok (mem, log ++ events Byte (slice mem inp (Z.of_nat k)) rs).
Proof.
  induction k as [|k IH]; intros inp mem log Ho Hm.
  - exists []. split; [exact I|]. cbn [writeCases]. rewrite slice_nil, events_nil, app_nil_r. reflexivity.
  - cbn [writeCases]. rewrite rd_ok by lia. cbn [bind]. unfold transferByte. set (b := nthZ mem inp). set (r := u8 (slave log b)).
    destruct (IH (inp + 1) mem (log ++ [Byte b r]) ltac:(lia) ltac:(lia)) as [rs [A E]].
    exists (r :: rs). replace (Z.of_nat (S k)) with (1 + Z.of_nat k) by lia. rewrite slice_cons by lia. fold b. split; [cbn [answers]; split; [reflexivity|exact A]|].
    rewrite E, events_cons, <- app_assoc. reflexivity.
Qed.
Lemma readAndWriteCases_spec slave k : forall inp out mem log,
  0 <= inp -> 0 <= out -> inp + Z.of_nat k <= zlen mem -> out + Z.of_nat k <= zlen mem -> same_or_apart inp out (Z.of_nat k) ->
  exists rs, answers Byte slave log (slice mem inp (Z.of_nat k)) rs /\
    readAndWriteCases slave k inp out (mem, log) = Ok (blit mem out rs, log ++ events Byte (slice mem inp (Z.of_nat k)) rs).
Proof.
  induction k as [|k IH]; intros inp out mem log Hi Ho Hmi Hmo Hs.
  - exists []. split; [exact I|]. cbn [readAndWriteCases]. rewrite slice_nil, events_nil, app_nil_r, blit_nil. reflexivity.
  - cbn [readAndWriteCases]. rewrite rd_ok by lia. cbn [bind]. unfold transferByte. set (b := nthZ mem inp). set (r := u8 (slave log b)).
    unfold wr. rewrite wr_slice_ok by (change (zlen [r]) with 1; lia). cbn [bind].
    assert (L : zlen (blit mem out [r]) = zlen mem) by (apply zlen_blit; change (zlen [r]) with 1; lia).
    destruct (IH (inp + 1) (out + 1) (blit mem out [r]) (log ++ [Byte b r])) as [rs [A E]]; try lia; [unfold same_or_apart in *; lia|].
    rewrite slice_blit_out in A, E by (try change (zlen [r]) with 1; unfold same_or_apart in Hs; lia).
    exists (r :: rs). replace (Z.of_nat (S k)) with (1 + Z.of_nat k) by lia. rewrite slice_cons by lia. fold b. split; [cbn [answers]; split; [reflexivity|exact A]|].
    rewrite E, events_cons, <- app_assoc. apply answers_len in A. rewrite zlen_slice in A by lia.
    change (out + 1) with (out + zlen [r]). rewrite blit_blit by (change (zlen [r]) with 1; lia). reflexivity.
Qed.

(** the four-byte groups and the rest *)
Lemma quarters n : 0 <= n -> n = n / 4 * 4 + n mod 4 /\ 0 <= n / 4 /\ 0 <= n mod 4 < 4 /\ (n < 4 -> n / 4 = 0 /\ n mod 4 = n).
Proof. intros H. Z.div_mod_to_equations. lia. Qed.

Lemma read_spec slave fill out n mem log : 0 <= out -> 0 <= n -> out + n <= zlen mem ->
  let sent := repeat fill (Z.to_nat (n / 4 * 4)) ++ repeat 255 (Z.to_nat (n mod 4)) in
  exists rs, answers Byte slave log sent rs /\ read slave fill out n (mem, log) = Ok (blit mem out rs, log ++ events Byte sent rs).
Proof.
  intros Ho Hn Hm sent. destruct (quarters n Hn) as [Q [Q1 [Q2 Q3]]]. unfold read. destruct (Z.ltb_spec n 4) as [H|H].
  - destruct (Q3 H) as [A B]. subst sent. rewrite A, B. cbn [Z.mul Z.to_nat repeat app].
    apply readCases_spec; lia.
  - unfold transferBytes. cbn [bind]. destruct (exchange_spec slave (repeat fill (Z.to_nat (n / 4 * 4))) log) as [r1 [E1 A1]]. rewrite E1.
    pose proof (answers_len _ _ _ _ _ A1) as L1. rewrite zlen_repeat in L1. rewrite wr_slice_ok by lia. cbn [bind].
    destruct (Z.eqb_spec (n mod 4) 0) as [R|R].
    + exists r1. subst sent. rewrite R. cbn [Z.to_nat repeat]. rewrite app_nil_r. split; [exact A1|reflexivity].
    + destruct (readCases_spec slave (Z.to_nat (n mod 4)) (out + n / 4 * 4) (blit mem out r1) (log ++ events Byte (repeat fill (Z.to_nat (n / 4 * 4))) r1) ltac:(lia)) as [r2 [A2 E2]].
      { rewrite zlen_blit by lia. lia. }
      exists (r1 ++ r2). split; [apply answers_app; assumption|]. rewrite E2. subst sent. rewrite events_app by (eapply answers_len_nat; exact A1). rewrite app_assoc.
      pose proof (answers_len _ _ _ _ _ A2) as L2. rewrite zlen_repeat in L2.
      replace (out + n / 4 * 4) with (out + zlen r1) by lia. rewrite blit_blit by lia. reflexivity.
Qed.
Lemma slice_quarters (l : list Z) o n : 0 <= o -> 0 <= n -> slice l o n = slice l o (n / 4 * 4) ++ slice l (o + n / 4 * 4) (n mod 4).
Proof. intros Ho Hn. destruct (quarters n Hn) as [Q [Q1 [Q2 _]]]. rewrite <- slice_app_split by lia. rewrite <- Q. reflexivity. Qed.
Lemma write_spec slave fill inp n mem log : 0 <= inp -> 0 <= n -> inp + n <= zlen mem ->
  exists rs, answers Byte slave log (slice mem inp n) rs /\ write slave fill inp n (mem, log) = Ok (mem, log ++ events Byte (slice mem inp n) rs).
Proof.
  intros Ho Hn Hm. destruct (quarters n Hn) as [Q [Q1 [Q2 Q3]]]. unfold write. destruct (Z.ltb_spec n 4) as [H|H].
  - destruct (writeCases_spec slave (Z.to_nat n) inp mem log Ho ltac:(lia)) as [rs [A E]]. rewrite Z2Nat.id in A, E by lia. exists rs. split; assumption.
  - unfold transferBytes. rewrite rd_slice_ok by lia. cbn [bind]. destruct (exchange_spec slave (slice mem inp (n / 4 * 4)) log) as [r1 [E1 A1]]. rewrite E1. cbn [bind].
    destruct (Z.eqb_spec (n mod 4) 0) as [R|R].
    + exists r1. rewrite (slice_quarters mem inp n) by lia. rewrite R, slice_nil, app_nil_r. split; [exact A1|reflexivity].
    + destruct (writeCases_spec slave (Z.to_nat (n mod 4)) (inp + n / 4 * 4) mem (log ++ events Byte (slice mem inp (n / 4 * 4)) r1) ltac:(lia) ltac:(lia)) as [r2 [A2 E2]].
      rewrite Z2Nat.id in A2, E2 by lia. exists (r1 ++ r2). rewrite (slice_quarters mem inp n) by lia. split; [apply answers_app; assumption|]. rewrite E2.
      rewrite events_app by (eapply answers_len_nat; exact A1). rewrite app_assoc. reflexivity.
Qed.
Lemma readAndWrite_spec slave fill inp out n mem log :
  0 <= inp -> 0 <= out -> 0 <= n -> inp + n <= zlen mem -> out + n <= zlen mem -> same_or_apart inp out n ->
  exists rs, answers Byte slave log (slice mem inp n) rs /\ readAndWrite slave fill inp out n (mem, log) = Ok (blit mem out rs, log ++ events Byte (slice mem inp n) rs).
Proof.
  intros Hi Ho Hn Hmi Hmo Hs. destruct (quarters n Hn) as [Q [Q1 [Q2 Q3]]]. unfold readAndWrite. destruct (Z.ltb_spec n 4) as [H|H].
  - destruct (readAndWriteCases_spec slave (Z.to_nat n) inp out mem log Hi Ho) as [rs [A E]]; try (rewrite Z2Nat.id by lia; assumption). rewrite Z2Nat.id in A, E by lia. exists rs. split; assumption.
  - unfold transferBytes. rewrite rd_slice_ok by lia. cbn [bind]. destruct (exchange_spec slave (slice mem inp (n / 4 * 4)) log) as [r1 [E1 A1]]. rewrite E1. cbn [bind].
    pose proof (answers_len _ _ _ _ _ A1) as L1. rewrite zlen_slice in L1 by lia. rewrite wr_slice_ok by lia. cbn [bind].
    destruct (Z.eqb_spec (n mod 4) 0) as [R|R].
    + exists r1. rewrite (slice_quarters mem inp n) by lia. rewrite R, slice_nil, app_nil_r. split; [exact A1|reflexivity].
    + assert (L : zlen (blit mem out r1) = zlen mem) by (apply zlen_blit; lia).
      destruct (readAndWriteCases_spec slave (Z.to_nat (n mod 4)) (inp + n / 4 * 4) (out + n / 4 * 4) (blit mem out r1) (log ++ events Byte (slice mem inp (n / 4 * 4)) r1)) as [r2 [A2 E2]]; try lia.
      { rewrite Z2Nat.id by lia. unfold same_or_apart in *. lia. }
      rewrite Z2Nat.id in A2, E2 by lia. rewrite slice_blit_out in A2, E2 by (unfold same_or_apart in Hs; lia).
      exists (r1 ++ r2). rewrite (slice_quarters mem inp n) by lia. split; [apply answers_app; assumption|]. rewrite E2.
      rewrite events_app by (eapply answers_len_nat; exact A1). rewrite app_assoc.
      pose proof (answers_len _ _ _ _ _ A2) as L2. rewrite zlen_slice in L2 by lia.
      replace (out + n / 4 * 4) with (out + zlen r1) by lia. rewrite blit_blit by lia. reflexivity.
Qed.

(** ** ESP32 *)
From Verif Require Import S_SpiEsp.
Lemma count_spec n m : 0 <= n -> 0 < m -> forall j, (j < count n m)%nat <-> m * Z.of_nat j < n.
Proof.
  intros Hn Hm j. unfold count. pose proof (Z.div_pos (n + m - 1) m ltac:(lia) Hm) as Hp.
  pose proof (Z.mul_div_le (n + m - 1) m Hm) as H1. pose proof (Z.mul_succ_div_gt (n + m - 1) m Hm) as H2. split; intros H; nia.
Qed.
Lemma cut_count n m : 0 <= n -> 0 < m -> cut n m (count n m) = n.
Proof. intros Hn Hm. unfold cut. pose proof (count_spec n m Hn Hm (count n m)) as H. destruct (Z.le_gt_cases n (m * Z.of_nat (count n m))); [lia|]. apply H in H0. lia. Qed.
Lemma cut_0 n m : 0 <= n -> cut n m 0 = 0.
Proof. intros H. unfold cut. lia. Qed.
Lemma cut_range n m j : 0 <= n -> 0 < m -> 0 <= cut n m j <= n.
Proof. intros Hn Hm. unfold cut. nia. Qed.
Lemma cut_step n m j : 0 <= n -> 0 < m -> cut n m (S j) = cut n m j + Z.min (n - cut n m j) m.
Proof. intros Hn Hm. unfold cut. nia. Qed.

Lemma stored_S drv mem send recv n m k :
  stored_bytes drv mem send recv n m (S k) = stored_bytes drv mem send recv n m k ++ received (answer drv mem send recv n m k).
Proof. unfold stored_bytes. rewrite seq_S, map_app, concat_app. cbn [Nat.add map concat]. rewrite app_nil_r. reflexivity. Qed.
Lemma answer_eq drv mem send recv n m k :
  answer drv mem send recv n m k = drv (fst (first_transactions drv mem send recv n m k)) (piece_transaction mem send recv n m (snd (first_transactions drv mem send recv n m k)) k).
Proof. unfold answer. destruct (first_transactions drv mem send recv n m k). reflexivity. Qed.
Lemma first_S drv mem send recv n m k : first_transactions drv mem send recv n m (S k) =
  (fst (first_transactions drv mem send recv n m k) ++ [piece_transaction mem send recv n m (snd (first_transactions drv mem send recv n m k)) k], rxLeft (answer drv mem send recv n m k)).
Proof. rewrite answer_eq. cbn [first_transactions]. destruct (first_transactions drv mem send recv n m k). reflexivity. Qed.

Lemma transfer_loop drv m mem send recv n : (recv <> None -> stores_properly drv) -> 0 < m -> 8 * m < 4294967296 -> 0 <= n -> fits mem send recv n ->
  let all_ok k := forall i, (i < k)%nat -> accepted (answer drv mem send recv n m i) = true in
  let memory k := match recv with Some r => blit mem r (stored_bytes drv mem send recv n m k) | None => mem end in
  forall fuel j, (count n m < fuel + j)%nat -> (j <= count n m)%nat -> all_ok j ->
    (match recv with Some _ => zlen (stored_bytes drv mem send recv n m j) = cut n m j | None => True end) ->
    let r := transferLoop fuel drv m (memory j) (fst (first_transactions drv mem send recv n m j)) (snd (first_transactions drv mem send recv n m j))
               (match send with Some s => Some (s + cut n m j) | None => None end)
               (match recv with Some s => Some (s + cut n m j) | None => None end) (n - cut n m j) in
    (all_ok (count n m) /\ r = Ok (true, memory (count n m), fst (first_transactions drv mem send recv n m (count n m))) /\
      (match recv with Some _ => zlen (stored_bytes drv mem send recv n m (count n m)) = n | None => True end)) \/
    (exists k, (k < count n m)%nat /\ all_ok k /\ accepted (answer drv mem send recv n m k) = false /\
      r = Ok (false, memory (S k), fst (first_transactions drv mem send recv n m (S k))) /\
      (match recv with Some _ => zlen (stored_bytes drv mem send recv n m (S k)) <= cut n m (S k) | None => True end)).
Proof.
  intros Hd Hm Hm8 Hn [Fs [Fr Fsr]] all_ok memory fuel. induction fuel as [|fuel IH]; intros j Hf Hj Hok Hst r; [lia|].
  subst r. cbn [transferLoop].
  pose proof (cut_range n m j Hn Hm) as Hc. pose proof (cut_step n m j Hn Hm) as Hcs.
  destruct (Nat.eq_dec j (count n m)) as [->|Hne].
  { rewrite cut_count in * by assumption. replace (0 <? n - n) with false by lia. left. split; [exact Hok|]. split; [reflexivity|exact Hst]. }
  assert (Hlt : (j < count n m)%nat) by lia. pose proof (proj1 (count_spec n m Hn Hm j) Hlt) as Hmj.
  assert (Hcj : cut n m j = m * Z.of_nat j) by (unfold cut; lia).
  replace (0 <? n - cut n m j) with true by lia.
  set (size := Z.min (n - cut n m j) m) in *. assert (Hsz : 0 < size /\ cut n m j + size <= n) by (subst size; lia).
  assert (E8 : u32 (8 * size) = 8 * size) by (unfold u32; apply Z.mod_small; subst size; lia).
  set (trs := fst (first_transactions drv mem send recv n m j)). set (rx := snd (first_transactions drv mem send recv n m j)).
  assert (Etr : (do tx <- match match send with Some s => Some (s + cut n m j) | None => None end with
               | Some s => do d <- rd_slice (memory j) s size; Ok (Some d, u32 (8 * size))
               | None => Ok (None, 0)
               end;
      Ok (mkTr (fst tx) (snd tx) (match recv with Some s => Some (s + cut n m j) | None => None end)
        (match match recv with Some s => Some (s + cut n m j) | None => None end with Some _ => u32 (8 * size) | None => rx end)))
      = Ok (piece_transaction mem send recv n m rx j)).
  { unfold piece_transaction. replace (cut n m (S j) - cut n m j) with size by lia. destruct send as [s|].
    - assert (ES : slice (memory j) (s + cut n m j) size = slice mem (s + cut n m j) size /\ zlen (memory j) = zlen mem).
      { subst memory. cbv beta. destruct recv as [q|]; [|split; reflexivity]. split; [|apply zlen_blit; lia].
        apply slice_blit_out; unfold same_or_apart in Fsr; lia. }
      destruct ES as [ES EL]. rewrite rd_slice_ok by lia. cbn [bind fst snd]. rewrite ES, E8. destruct recv; reflexivity.
    - cbn [bind fst snd]. rewrite E8. destruct recv; reflexivity. }
  destruct (match match send with Some s => Some (s + cut n m j) | None => None end with
               | Some s => do d <- rd_slice (memory j) s size; Ok (Some d, u32 (8 * size))
               | None => Ok (None, 0)
               end) as [tx| |] eqn:Etx; cbn [bind] in Etr |- *; try discriminate Etr. apply Ok_inj in Etr. rewrite Etr.
  assert (Ea : drv trs (piece_transaction mem send recv n m rx j) = answer drv mem send recv n m j) by (symmetry; apply answer_eq).
  pose proof (fun H => Hd H trs (piece_transaction mem send recv n m rx j) size) as Hd1. rewrite Ea in Hd1 |- *.
  assert (Hdd : forall q, recv = Some q -> zlen (received (answer drv mem send recv n m j)) <= size /\
    (accepted (answer drv mem send recv n m j) = true -> zlen (received (answer drv mem send recv n m j)) = size)).
  { intros q ->. unfold piece_transaction in Hd1. cbn [rxPtr rxBits] in Hd1. replace (cut n m (S j) - cut n m j) with size in Hd1 by lia. apply Hd1; [discriminate|discriminate|lia|reflexivity]. }
  clear Hd1. set (a := answer drv mem send recv n m j) in *. pose proof (zlen_nonneg (received a)) as Hdn.
  assert (Ew : match match recv with Some s => Some (s + cut n m j) | None => None end with Some q => wr_slice (memory j) q (received a) | None => Ok (memory j) end = Ok (memory (S j))).
  { subst memory. cbv beta. destruct recv as [q|]; [|reflexivity]. destruct (Hdd q eq_refl) as [Hd1 _]. rewrite wr_slice_ok by (try rewrite zlen_blit; lia). rewrite stored_S. fold a.
    rewrite <- Hst. rewrite blit_blit by lia. reflexivity. }
  rewrite Ew. cbn [bind]. destruct (accepted a) eqn:Ek.
  - assert (Hok' : all_ok (S j)) by (intros i Hi; destruct (Nat.eq_dec i j) as [->|Hi2]; [exact Ek|apply Hok; lia]).
    assert (Hst' : match recv with Some _ => zlen (stored_bytes drv mem send recv n m (S j)) = cut n m (S j) | None => True end).
    { destruct recv as [q|]; [|exact I]. destruct (Hdd q eq_refl) as [_ Hd2]. rewrite stored_S, zlen_app. fold a. specialize (Hd2 eq_refl). lia. }
    specialize (IH (S j) ltac:(lia) ltac:(lia) Hok' Hst'). cbv zeta in IH. rewrite !(first_S drv mem send recv n m j) in IH. cbn [fst snd] in IH. fold a trs rx in IH. rewrite Hcs in IH.
    replace (match match send with Some s => Some (s + cut n m j) | None => None end with Some s => Some (s + size) | None => None end) with (match send with Some s => Some (s + (cut n m j + size)) | None => None end) by (destruct send; [rewrite Z.add_assoc|]; reflexivity).
    replace (match match recv with Some s => Some (s + cut n m j) | None => None end with Some s => Some (s + size) | None => None end) with (match recv with Some s => Some (s + (cut n m j + size)) | None => None end) by (destruct recv; [rewrite Z.add_assoc|]; reflexivity).
    replace (n - cut n m j - size) with (n - (cut n m j + size)) by lia. exact IH.
  - right. exists j. split; [exact Hlt|]. split; [exact Hok|]. split; [exact Ek|]. split; [rewrite first_S; reflexivity|].
    destruct recv as [q|]; [|exact I]. destruct (Hdd q eq_refl) as [Hd1 _]. rewrite stored_S, zlen_app. fold a. lia.
Qed.
