(** Property C78: devices sharing an SPI bus. *)
From Verif Require Import Base M_SpiArduino M_SpiEsp S_Spi S_SpiEsp L_Spi P_Spi M_SpiShare S_SpiShare L_SpiShare.

(** Arduino: every conversation goes as if its device were alone, and every device sees exactly its own
    frames. *)
Theorem C78_arduino : forall pins dev noise fill ss w, NoDup pins ->
  Forall (fun s => In (fst s) pins) ss -> (forall p, In p pins -> selected p w = false) ->
  exists ls w', talks (ardCall (shared pins dev noise) fill) ss w = Ok (ls, w') /\ length ls = length ss /\
    (forall k p rs, nth_error ss k = Some (p, rs) ->
       nth_error ls k = Some (alone (ard_bytes fill) (dev p) (frames p w ++ its_frames (ard_bytes fill) p (firstn k ss)) [] rs)) /\
    forall p, In p pins -> selected p w' = false /\ frames p w' = frames p w ++ its_frames (ard_bytes fill) p ss.
Proof.
  intros pins dev noise fill ss w N Hs Hw. apply (talks_alone pins dev noise); try assumption. apply Forall_forall. intros s H. rewrite Forall_forall in Hs.
  split; [apply Hs; exact H|]. apply Forall_forall. intros r _. apply ard_does.
Qed.
Print Assumptions C78_arduino.

(** ESP32, for the requests the mode of the bus is meant for. *)
Theorem C78_esp : forall pins dev noise half idle m ss w, NoDup pins -> 0 < m -> 8 * m < 4294967296 ->
  Forall (fun s => In (fst s) pins /\ Forall (meant_for half m) (snd s)) ss -> (forall p, In p pins -> selected p w = false) ->
  exists ls w', talks (espCall (shared pins dev noise) half idle m) ss w = Ok (ls, w') /\ length ls = length ss /\
    (forall k p rs, nth_error ss k = Some (p, rs) ->
       nth_error ls k = Some (alone (esp_bytes idle) (dev p) (frames p w ++ its_frames (esp_bytes idle) p (firstn k ss)) [] rs)) /\
    forall p, In p pins -> selected p w' = false /\ frames p w' = frames p w ++ its_frames (esp_bytes idle) p ss.
Proof.
  intros pins dev noise half idle m ss w N Hm Hm8 Hs Hw. apply (talks_alone pins dev noise); try assumption. apply Forall_forall. intros s H. rewrite Forall_forall in Hs.
  destruct (Hs s H) as [A B]. split; [exact A|]. rewrite Forall_forall in *. intros r Hr. apply esp_does; auto.
Qed.
Print Assumptions C78_esp.
(** the sends left out: in full duplex a send of several pieces with a shorter last one fails after the
    other pieces have gone out *)
Theorem C78_long_send : forall slave idle m d w, 0 < m -> 8 * m < 4294967296 -> m < zlen d -> zlen d mod m <> 0 ->
  espCall slave false idle m (Send d) w = Ok (false, [], w ++ map Clocked (firstn (Z.to_nat (m * (zlen d / m))) d)).
Proof.
  intros slave idle m d w Hm Hm8 Hd Hr. set (n := zlen d) in *. pose proof (zlen_nonneg d) as Hn. fold n in Hn.
  unfold espCall. fold n.
  assert (F : as_full_duplex (espDriver slave false idle w)).
  { intros log tr. unfold espDriver, accepts. cbn [orb negb andb]. destruct (Z.leb_spec (rxBits tr) (lengthBits tr)); cbn [accepted rxLeft]; split; try reflexivity; lia. }
  pose proof (count_spec n m Hn Hm) as Hc.
  assert (Fu : (count n m < S (length d))%nat).
  { destruct (le_lt_dec (count n m) (length d)) as [K|K]; [lia|]. apply Hc in K. unfold zlen in n. fold n in K. nia. }
  rewrite (C51_full_duplex_send _ m d 0 n _ F Hm Hm8 Hn) by (try exact Fu; unfold fits; fold n; repeat split; lia). cbn [bind].
  replace ((n <=? m) || (n mod m =? 0)) with false by (symmetry; apply orb_false_iff; split; [apply Z.leb_gt; exact Hd|apply Z.eqb_neq; exact Hr]).
  do 2 f_equal. set (tr := fun j => piece_transaction d (Some 0) None n m (if Nat.eqb j 0 then 0 else 8 * m) j).
  assert (Cut : forall j, m * Z.of_nat j <= n -> cut n m j = m * Z.of_nat j) by (intros j Hj; unfold cut; lia).
  assert (S_ : forall j, m * Z.of_nat (S j) = m * Z.of_nat j + m) by (intros j; rewrite Nat2Z.inj_succ, Z.mul_succ_r; reflexivity).
  assert (W : forall k, m * Z.of_nat k <= n -> espWires slave false idle w (map tr (seq 0 k)) = w ++ map Clocked (slice d 0 (m * Z.of_nat k))).
  { induction k as [|k IH]; intros Hk; [rewrite Z.mul_0_r, slice_nil, app_nil_r; reflexivity|]. rewrite S_ in Hk. rewrite seq_S, map_app, esp_wires_app, IH by lia.
    cbn [map Nat.add]. unfold espWires. cbn [fold_left]. unfold tr at 1 2, piece_transaction, accepts, perform. cbn [rxBits lengthBits txData orb].
    rewrite !Cut by (rewrite ?S_; lia). rewrite S_. replace (m * Z.of_nat k + m - m * Z.of_nat k) with m by lia.
    replace ((if Nat.eqb k 0 then 0 else 8 * m) <=? 8 * m) with true by (destruct (Nat.eqb k 0); lia).
    rewrite clock_wires, <- app_assoc, <- map_app, <- slice_app_split by nia. reflexivity. }
  set (q := Z.to_nat (n / m)). assert (Q0 : 0 <= n / m) by (apply Z.div_pos; lia). assert (Q : n = m * Z.of_nat q + n mod m) by (unfold q; rewrite Z2Nat.id by exact Q0; apply Z.div_mod; lia).
  pose proof (Z.mod_pos_bound n m Hm) as B. assert (Hq : (0 < q)%nat) by (destruct q; [change (Z.of_nat 0) with 0 in Q; lia|lia]).
  assert (E : count n m = S q).
  { pose proof (Hc q) as H1. pose proof (Hc (S q)) as H2. rewrite S_ in H2. lia. }
  rewrite E, seq_S, map_app, esp_wires_app, W by lia. cbn [map Nat.add]. unfold espWires. cbn [fold_left].
  assert (A : accepts false (tr q) = false).
  { unfold tr, piece_transaction, accepts. cbn [rxBits lengthBits orb]. replace (Nat.eqb q 0) with false by (symmetry; apply Nat.eqb_neq; lia). apply Z.leb_gt.
    rewrite (Cut q) by lia. unfold cut. rewrite S_. lia. }
  rewrite A. unfold slice. cbn [Z.to_nat skipn]. unfold q. rewrite Z2Nat.id by exact Q0. reflexivity.
Qed.
Print Assumptions C78_long_send.

(** the two answers: what is read in a conversation does not depend on the conversations with others *)
Theorem C78_independent : forall pins dev dev' noise noise' fill ss ss' w w' k k' p rs ls ls' v v',
  NoDup pins -> Forall (fun s => In (fst s) pins) ss -> Forall (fun s => In (fst s) pins) ss' ->
  (forall p, In p pins -> selected p w = false) -> (forall p, In p pins -> selected p w' = false) ->
  talks (ardCall (shared pins dev noise) fill) ss w = Ok (ls, v) -> talks (ardCall (shared pins dev' noise') fill) ss' w' = Ok (ls', v') ->
  nth_error ss k = Some (p, rs) -> nth_error ss' k' = Some (p, rs) -> dev p = dev' p -> frames p w = frames p w' ->
  filter (fun s => fst s =? p) (firstn k ss) = filter (fun s => fst s =? p) (firstn k' ss') ->
  nth_error ls k = nth_error ls' k'.
Proof.
  intros pins dev dev' noise noise' fill ss ss' w w' k k' p rs ls ls' v v' N H1 H2 W1 W2 E1 E2 K1 K2 D F I.
  destruct (C78_arduino pins dev noise fill ss w N H1 W1) as [l1 [v1 [A1 [_ [B1 _]]]]]. destruct (C78_arduino pins dev' noise' fill ss' w' N H2 W2) as [l2 [v2 [A2 [_ [B2 _]]]]].
  rewrite E1 in A1. rewrite E2 in A2. injection A1 as <- <-. injection A2 as <- <-. rewrite (B1 k p rs K1), (B2 k' p rs K2), D, F. unfold its_frames. rewrite I. reflexivity.
Qed.
Print Assumptions C78_independent.

(** In a block that selects a second device inside the block of a first one, the first device sees the
    bytes meant for the second, and what is read is not the second device's answer. *)
Theorem C78_nested_refuted : exists (a b : Z) (data : list Z) (dev : Z -> device) (noise : list wire -> Z -> Z), a <> b /\
  exists l w, talk (ardCall (shared [a; b] dev noise) 0) b [Exchange data] [Pin a true; Pin b true; Pin a false] = Ok (l, w) /\
    frames b w = [data] /\ current a w = data /\ l <> alone (ard_bytes 0) (dev b) [] [] [Exchange data].
Proof.
  exists 1, 2, [7; 8], (fun p _ _ _ => p), (fun _ _ => 99). split; [lia|]. eexists _, _. split; [vm_compute; reflexivity|].
  split; [reflexivity|]. split; [reflexivity|]. vm_compute. discriminate.
Qed.
Print Assumptions C78_nested_refuted.

(** Two devices: one counts the bytes it has seen, one echoes; a byte clocked out by nobody reads 99. *)
Definition C78_dev (p : Z) : device := fun fs cur b => if p =? 4 then zlen (concat fs) + zlen cur else b + 1.
Definition C78_case : list (Z * list request) := [(4, [Send [1; 2; 3]]); (5, [Exchange [10; 20; 30; 40; 255]]); (4, [Send [6]; Receive 5])].
Example C78_case_arduino : exists w, talks (ardCall (shared [4; 5] C78_dev (fun _ _ => 99)) 0) C78_case [Pin 4 true; Pin 5 true]
  = Ok ([[(true, [])]; [(true, [11; 21; 31; 41; 0])]; [(true, []); (true, [4; 5; 6; 7; 8])]], w)
    /\ frames 4 w = [[1; 2; 3]; [6; 0; 0; 0; 0; 255]] /\ frames 5 w = [[10; 20; 30; 40; 255]].
Proof. eexists. split; [vm_compute; reflexivity|]. split; reflexivity. Qed.
Example C78_case_esp : exists w, talks (espCall (shared [4; 5] C78_dev (fun _ _ => 99)) true 0 2) [(4, [Send [1; 2; 3]]); (5, [Receive 3]); (4, [Send [6]; Receive 5])] [Pin 4 true; Pin 5 true]
  = Ok ([[(true, [])]; [(true, [1; 1; 1])]; [(true, []); (true, [4; 5; 6; 7; 8])]], w)
    /\ frames 4 w = [[1; 2; 3]; [6; 0; 0; 0; 0; 0]] /\ frames 5 w = [[0; 0; 0]].
Proof. eexists. split; [vm_compute; reflexivity|]. split; reflexivity. Qed.
(** full duplex, pieces of 2 bytes: a send of 4 bytes passes, one of 5 fails after 4 *)
Example C78_case_full : exists w, talks (espCall (shared [4; 5] C78_dev (fun _ _ => 99)) false 0 2) [(4, [Send [1; 2; 3; 4]]); (5, [Exchange [10; 20; 30]])] [Pin 4 true; Pin 5 true]
  = Ok ([[(true, [])]; [(true, [11; 21; 31])]], w) /\ frames 4 w = [[1; 2; 3; 4]] /\ frames 5 w = [[10; 20; 30]].
Proof. eexists. split; [vm_compute; reflexivity|]. split; reflexivity. Qed.
Example C78_case_long : espCall (fun _ _ => 0) false 0 2 (Send [1; 2; 3; 4; 5]) [Pin 4 false] = Ok (false, [], [Pin 4 false; Clocked 1; Clocked 2; Clocked 3; Clocked 4]).
Proof. reflexivity. Qed.
