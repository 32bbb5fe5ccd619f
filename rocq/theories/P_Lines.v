(** C80: lines are received one by one with ReceiveUntil, and debug lines of one device by another. *)
From Verif Require Import Base S_Uart S_Packets S_Lines M_UartEsp M_UartArduino L_UartEsp L_UartArduino L_Packets L_Lines P_Uart.
From Verif Require Import S_BufferedOut M_BufferedOut M_SerialOut L_SerialOut M_Debug S_Debug L_Debug P_Debug.

(** ESP32: whatever arrives and whenever, the calls together return every byte taken from the driver, in
    order; each ends with the end byte, fills the buffer or runs into its deadline. *)
Theorem C80_esp_nothing_lost : forall fuel size e t clocks rx mem l n,
  Forall clock clocks -> 0 <= size < 65536 -> size <= zlen mem ->
  esp_lines fuel clocks rx mem size e t = Ok (l, n) ->
  concat l = received rx n /\
  Forall2 (fun ticks p => zlen p <= size /\ only_last e p /\
    (ends_with e p \/ zlen p = size \/ (t <> 0 /\ exists i, deadline ticks t <= ticks i))) clocks l.
Proof.
  intros fuel size e t clocks rx mem l n HC Hs. revert rx mem l n. induction HC as [|ticks clocks Hck HC IH]; intros rx mem l n Hm H; cbn [esp_lines] in H.
  { apply Ok_inj in H. injection H as <- <-. split; [reflexivity|constructor]. }
  destruct (espReceiveUntil fuel ticks rx mem size e t) as [o| |] eqn:Eo; cbn [bind] in H; try discriminate.
  destruct (esp_lines fuel clocks (from rx (reads o)) (omem o) size e t) as [[l' n']| |] eqn:El; cbn [bind] in H; try discriminate.
  apply Ok_inj in H. injection H as <- <-.
  destruct (C46_until fuel ticks rx mem size e t Hck Hs Hm) as [K|[o' [Eo' K]]]; [congruence|]. assert (o' = o) by congruence. subst o'. clear Eo'.
  cbv zeta in K. destruct K as (K1 & K2 & K3 & K4 & K5). rewrite K2 in K3.
  destruct (IH (from rx (reads o)) (omem o) l' n') as [I1 I2]; [rewrite K1, overwritten_len by lia; exact Hm|exact El|].
  rewrite K1, K2, returned. split.
  - cbn [concat]. rewrite I1, received_from. reflexivity.
  - constructor; [|exact I2]. split; [exact K3|]. split; [exact K4|]. rewrite K2 in K5. destruct K5 as [K5|[K5|[K5 K6]]]; [auto|auto|].
    right. right. split; [exact K5|]. eexists. exact K6.
Qed.
Print Assumptions C80_esp_nothing_lost.
(** lines that fit are returned one by one, whatever the pauses, unless a deadline passes *)
Theorem C80_esp_lines : forall fuel size e t texts clocks rx mem N,
  size < 65536 -> size <= zlen mem ->
  received rx N = stream e texts -> Forall (fun x => ~ In e x /\ zlen x + 1 <= size) texts -> length clocks = length texts ->
  Forall (fun ticks => t <> 0 -> forall i, (i < N)%nat -> ticks (S i) < deadline ticks t) clocks -> (N <= fuel)%nat ->
  exists n, (n <= N)%nat /\ esp_lines fuel clocks rx mem size e t = Ok (map (fun x => x ++ [e]) texts, n).
Proof.
  intros fuel size e t texts clocks rx mem N Hs. revert clocks rx mem N. induction texts as [|x texts IH]; intros [|ticks clocks] rx mem N Hm HR HT HL HC Hf; try discriminate HL.
  { exists O. split; [lia|reflexivity]. }
  unfold stream in HR. cbn [map concat] in HR. rewrite <- app_assoc in HR. cbn [app] in HR. pose proof (Forall_inv HT) as [T1 T2].
  destruct (first_end e x _ T1 N rx HR) as (k & A & B & C & D). pose proof (Forall_inv HC) as C1.
  destruct (until_line ticks rx mem size e t (deadline ticks t) Hs Hm k fuel (ticks O) 1 0 [] []) as (o & O1 & O2 & O3 & O4).
  { exact C. } { change (from rx 0) with rx. rewrite B. exact T1. } { change (from rx 0) with rx. rewrite B. change (zlen (@nil Z)) with 0. lia. } { lia. }
  { intros E i Hi. apply (C1 E i). lia. }
  change (from rx 0) with rx in *. rewrite B in O2, O3. cbn [app] in O2, O3. change (overwritten mem []) with mem in O1. change (zlen (@nil Z)) with 0 in O1.
  assert (Eo : espReceiveUntil fuel ticks rx mem size e t = Ok o) by exact O1. cbn [Nat.add] in O4.
  destruct (IH clocks (from rx (S k)) (omem o) (N - S k)%nat) as (n & N1 & N2).
  - rewrite O2, overwritten_len; [exact Hm|]. rewrite zlen_app. change (zlen [e]) with 1. lia.
  - exact D.
  - exact (Forall_inv_tail HT).
  - cbn [length] in HL. lia.
  - eapply Forall_impl; [|exact (Forall_inv_tail HC)]. cbn beta. intros tk H E i Hi. apply (H E). lia.
  - lia.
  - exists (S k + n)%nat. split; [lia|]. cbn [esp_lines map]. rewrite Eo. cbn [bind]. rewrite O4, N2. cbn [bind]. rewrite O2, O3, returned. reflexivity.
Qed.
Print Assumptions C80_esp_lines.

(** Arduino: each call takes some bytes and returns them with an end byte, which it may have made up: when
    the bytes fill the buffer the end byte is not taken from the line, and when a read fails there was none. *)
Theorem C80_arduino_pieces : forall fuel size e t old calls timed mem l n,
  1 <= size < 65536 -> size <= zlen mem ->
  ard_lines calls fuel timed old mem size e t = Ok (l, n) ->
  let T := if 0 <? t then t else old in
  exists gots taken, l = map (fun g => g ++ [e]) gots /\ length gots = calls /\ Forall2 (takes size e) gots taken /\
    map (fun i => timed i T) (seq 0 n) = concat taken.
Proof.
  intros fuel size e t old calls timed mem l n Hs Hm H T. revert timed mem l n Hm H. induction calls as [|calls IH]; intros timed mem l n Hm H; cbn [ard_lines] in H.
  { apply Ok_inj in H. injection H as <- <-. exists [], []. repeat split; constructor. }
  destruct (ardReceiveUntil fuel timed old mem size e t) as [o| |] eqn:Eo; cbn [bind] in H; try discriminate.
  destruct (ard_lines calls fuel (fun i => timed (aTimed o + i)%nat) old (amem o) size e t) as [[l' n']| |] eqn:El; cbn [bind] in H; try discriminate.
  apply Ok_inj in H. injection H as <- <-.
  destruct (until_takes fuel timed old mem size e t o Hs Hm Eo) as (got & G1 & G2 & G3). fold T in G3.
  destruct (IH (fun i => timed (aTimed o + i)%nat) (amem o) l' n') as (gots & taken & I1 & I2 & I3 & I4); [|exact El|].
  { rewrite G1, overwritten_len; [exact Hm|]. rewrite zlen_app. change (zlen [e]) with 1. destruct G3 as [_ [[G3 _]|[G3 _]]]; lia. }
  exists (got :: gots), (map (fun i => timed i T) (seq 0 (aTimed o)) :: taken). split; [cbn [map]; rewrite G1, G2, returned, I1; reflexivity|].
  split; [cbn [length]; lia|]. split; [constructor; assumption|]. cbn [concat]. rewrite <- I4, seq_app, map_app. f_equal.
  cbn [Nat.add]. rewrite <- (Nat.add_0_r (aTimed o)) at 1. generalize (aTimed o). intros a. clear. generalize O. induction n' as [|n IHn]; intros z; [reflexivity|]. cbn [seq map]. f_equal.
  rewrite <- IHn. do 2 f_equal. lia.
Qed.
Print Assumptions C80_arduino_pieces.
(** lines shorter than the buffer by at least one byte more than the end byte are returned one by one *)
Theorem C80_arduino_lines : forall fuel size e t old texts timed mem tail,
  1 <= size < 65536 -> size <= zlen mem ->
  let T := if 0 <? t then t else old in
  (forall i, timed i T = nth_error (stream e texts ++ tail) i) ->
  Forall (fun x => ~ In e x /\ zlen x + 1 < size) texts -> size <= Z.of_nat fuel ->
  ard_lines (length texts) fuel timed old mem size e t = Ok (map (fun x => x ++ [e]) texts, length (stream e texts)).
Proof.
  intros fuel size e t old texts timed mem tail Hs Hm T HT HL Hf. revert timed mem Hm HT HL. induction texts as [|x texts IH]; intros timed mem Hm HT HL; [reflexivity|].
  cbn [length ard_lines map]. pose proof (Forall_inv HL) as [X1 X2]. unfold stream in *. cbn [map concat] in *. fold (stream e texts) in *.
  destruct (until_text fuel timed old mem size e t x Hs Hm X1 ltac:(lia) ltac:(unfold zlen in *; lia)) as (o & O1 & O2 & O3 & O4).
  { fold T. intros i b Hi. rewrite HT, <- app_assoc. rewrite nth_error_app1; [exact Hi|]. apply nth_error_Some. congruence. }
  rewrite O1. cbn [bind]. replace (zlen x + 1 =? size) with false in O4 by lia. assert (O5 : aTimed o = length (x ++ [e])) by (rewrite app_length; exact O4). rewrite O5.
  rewrite IH; [cbn [bind]; rewrite O2, O3, returned, (app_length (x ++ [e])); reflexivity| | |exact (Forall_inv_tail HL)].
  - rewrite O2, overwritten_len; [exact Hm|]. rewrite zlen_app. change (zlen [e]) with 1. lia.
  - intros i. rewrite HT, <- app_assoc, nth_error_app2 by lia. f_equal. lia.
Qed.
Print Assumptions C80_arduino_lines.
(** a line that fills the buffer is followed by an empty one that nobody sent *)
Theorem C80_arduino_full_line : forall fuel size e t old x timed mem tail,
  2 <= size < 65536 -> size <= zlen mem ->
  let T := if 0 <? t then t else old in
  (forall i, timed i T = nth_error (x ++ e :: tail) i) -> ~ In e x -> zlen x + 1 = size -> size <= Z.of_nat fuel ->
  ard_lines 2 fuel timed old mem size e t = Ok ([x ++ [e]; [e]], length (x ++ [e])).
Proof.
  intros fuel size e t old x timed mem tail Hs Hm T HT Hx Hl Hf. cbn [ard_lines].
  destruct (until_text fuel timed old mem size e t x ltac:(lia) Hm Hx ltac:(lia) ltac:(unfold zlen in *; lia)) as (o & O1 & O2 & O3 & O4).
  { fold T. intros i b Hi. rewrite HT. replace (x ++ e :: tail) with ((x ++ [e]) ++ tail) by (rewrite <- app_assoc; reflexivity). rewrite nth_error_app1; [exact Hi|]. apply nth_error_Some. congruence. }
  rewrite O1. cbn [bind]. replace (zlen x + 1 =? size) with true in O4 by lia.
  assert (M2 : size <= zlen (amem o)) by (rewrite O2, overwritten_len; [exact Hm|]; rewrite zlen_app; change (zlen [e]) with 1; lia).
  destruct (until_text fuel (fun i => timed (aTimed o + i)%nat) old (amem o) size e t [] ltac:(lia) M2 (fun K => K) ltac:(change (zlen (@nil Z)) with 0; lia) ltac:(cbn [length]; lia)) as (q & Q1 & Q2 & Q3 & Q4).
  { fold T. cbn [app]. intros [|[|i]] b Hi; cbn [nth_error] in Hi; try discriminate. injection Hi as <-. rewrite HT, O4, nth_error_app2 by lia.
    replace (length x + 0 + 0 - length x)%nat with O by lia. reflexivity. }
  rewrite Q1. cbn [bind]. change (zlen (@nil Z) + 1) with 1 in Q4. replace (1 =? size) with false in Q4 by lia.
  rewrite O2, O3, Q2, Q3, !returned, O4, Q4, app_length. cbn [app length]. do 3 f_equal. lia.
Qed.
Print Assumptions C80_arduino_full_line.

(** Debug lines printed on one device (either platform, the driver takes what it is given) arrive as
    lines on the other: ESP32 waiting without timeout, whatever the pauses, or Arduino with every byte there. *)
Theorem C80_debug : forall lines items driver written W, Forall2 (Forall2 sprints) lines items -> (forall log bs, driver log bs = zlen bs) ->
  exists s' texts espCalls ardCalls, srun (concat (map debugLog lines)) serialDebug = Ok s' /\
    Forall2 (clipped_all 128) items texts /\
    espFlushes driver [] (sent s') = Ok espCalls /\ ardFlushes written W [] (sent s') = Ok ardCalls /\
    forall sent, sent = bytes_out espCalls \/ sent = on_line ardCalls -> Forall (fun x => ~ In 10 x) texts ->
    (forall fuel clocks rx mem size N, 129 <= size < 65536 -> size <= zlen mem -> received rx N = sent -> length clocks = length texts -> (N <= fuel)%nat ->
       exists n, (n <= N)%nat /\ esp_lines fuel clocks rx mem size 10 0 = Ok (map (fun x => x ++ [10]) texts, n)) /\
    (forall fuel old timed mem size t tail, 130 <= size < 65536 -> size <= zlen mem -> size <= Z.of_nat fuel ->
       (forall i, timed i (if 0 <? t then t else old) = nth_error (sent ++ tail) i) ->
       ard_lines (length texts) fuel timed old mem size 10 t = Ok (map (fun x => x ++ [10]) texts, length sent)).
Proof.
  intros lines items driver written W H HD. destruct (debug_lines lines items H) as (s' & texts & E & F & S & L).
  assert (B : Forall (fun b => zlen b <= 65535) (sent s')) by (rewrite S; apply pieces_short; exact L).
  destruct (ard_lines_out written W texts [] L eq_refl) as (A1 & A2 & _).
  exists s', texts, (esp_calls driver [] (sent s')). eexists. split; [exact E|]. split; [exact F|].
  split; [rewrite (esp_flushes driver _ B []); reflexivity|]. split; [rewrite S; exact A1|].
  intros out Hout HT. assert (EO : out = stream 10 texts).
  { destruct Hout as [->| ->]; [rewrite esp_calls_all by exact HD; rewrite S; apply pieces_concat|exact A2]. }
  subst out. split.
  - intros fuel clocks rx mem size N Hs Hm HR HL Hf. apply C80_esp_lines; try assumption; [lia| |].
    + rewrite Forall_forall in *. intros x Hx. split; [exact (HT x Hx)|]. specialize (L x Hx). cbn beta in L. lia.
    + apply Forall_forall. intros tk _ K. contradiction.
  - intros fuel old timed mem size t tail Hs Hm Hf HTm. eapply C80_arduino_lines; [lia|exact Hm|exact HTm| |exact Hf].
    rewrite Forall_forall in *. intros x Hx. split; [exact (HT x Hx)|]. specialize (L x Hx). cbn beta in L. lia.
Qed.
Print Assumptions C80_debug.

(** two lines with a pause on an ESP32, the same on an Arduino, and a line that fills its buffer *)
Example C80_case :
  esp_lines 10 [(fun _ => 5); (fun _ => 9)] (fun i => nth i [Some 72; None; Some 105; Some 10; None; Some 33; Some 10] None) (repeat 0 4) 4 10 0 = Ok ([[72; 105; 10]; [33; 10]], 7%nat) /\
  ard_lines 2 10 (fun i _ => nth_error [72; 105; 10; 33; 10] i) 1000 (repeat 0 4) 4 10 0 = Ok ([[72; 105; 10]; [33; 10]], 5%nat) /\
  ard_lines 3 10 (fun i _ => nth_error [72; 105; 10; 33; 10] i) 1000 (repeat 0 4) 3 10 0 = Ok ([[72; 105; 10]; [10]; [33; 10]], 5%nat) /\
  stream 10 [[72; 105]; [33]] = [72; 105; 10; 33; 10].
Proof. repeat split; vm_compute; reflexivity. Qed.
Example C80_debug_case : exists s' calls,
  Forall2 (Forall2 sprints) [[SCStr [72; 105; 0]; SInt 7 []]; [SSpan [171]]] [[CText [72; 105; 0]; Number 7]; [HexBytes [171]]] /\
  srun (concat (map debugLog [[SCStr [72; 105; 0]; SInt 7 []]; [SSpan [171]]])) serialDebug = Ok s' /\
  espFlushes (fun _ bs => zlen bs) [] (sent s') = Ok calls /\
  esp_lines 20 [(fun _ => 0); (fun _ => 0)] (fun i => nth_error (bytes_out calls) i) (repeat 0 130) 130 10 0 = Ok ([[72; 105; 55; 10]; [65; 66; 10]], 7%nat) /\
  ard_lines 2 130 (fun i _ => nth_error (bytes_out calls) i) 1000 (repeat 0 130) 130 10 100 = Ok ([[72; 105; 55; 10]; [65; 66; 10]], 7%nat).
Proof.
  eexists _, _. split.
  { constructor; [|constructor; [|constructor]].
    - constructor; [constructor; cbn; tauto|]. constructor; [constructor|constructor].
    - constructor; [constructor; apply Forall_cons; [unfold is_byte; lia|apply Forall_nil]|constructor]. }
  split; [vm_compute; reflexivity|]. split; [vm_compute; reflexivity|]. split; vm_compute; reflexivity.
Qed.
