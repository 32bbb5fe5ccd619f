(** Lemmas about devices sharing an SPI bus. *)
From Verif Require Import Base M_SpiArduino M_SpiEsp S_Spi L_Spi M_SpiShare S_SpiShare.

(** ** Clocking bytes *)
Lemma clock_wires slave data : forall w, snd (clock slave w data) = w ++ map Clocked data.
Proof.
  induction data as [|b data IH]; intros w; cbn [clock map]; [symmetry; apply app_nil_r|].
  specialize (IH (w ++ [Clocked b])). destruct (clock slave (w ++ [Clocked b]) data) as [rs w']. cbn [snd] in *. rewrite IH, <- app_assoc. reflexivity.
Qed.
Lemma clock_cons slave w b data : fst (clock slave w (b :: data)) = u8 (slave w b) :: fst (clock slave (w ++ [Clocked b]) data).
Proof. cbn [clock]. destruct (clock slave (w ++ [Clocked b]) data). reflexivity. Qed.
Lemma clock_app slave a b : forall w, fst (clock slave w (a ++ b)) = fst (clock slave w a) ++ fst (clock slave (w ++ map Clocked a) b).
Proof.
  induction a as [|x a IH]; intros w; cbn [app map]; [rewrite app_nil_r; reflexivity|].
  rewrite !clock_cons, IH. cbn [app]. rewrite <- app_assoc. reflexivity.
Qed.
Lemma clock_len slave data : forall w, zlen (fst (clock slave w data)) = zlen data.
Proof. induction data as [|b data IH]; intros w; [reflexivity|]. rewrite clock_cons, !zlen_cons, IH. reflexivity. Qed.

(** ** Arduino *)
Lemma wires_app a b : wires (a ++ b) = wires a ++ wires b.
Proof. unfold wires. apply flat_map_app. Qed.
Lemma wires_events sent : forall rs, length sent = length rs -> wires (events Byte sent rs) = map Clocked sent.
Proof.
  induction sent as [|b sent IH]; intros [|r rs] H; try discriminate H; [reflexivity|].
  rewrite events_cons. change (wires (Byte b r :: events Byte sent rs)) with (Clocked b :: wires (events Byte sent rs)). rewrite IH by (injection H; auto). reflexivity.
Qed.
Lemma answers_clock slave w sent : forall rs log, answers Byte (onBus slave w) log sent rs -> rs = fst (clock slave (w ++ wires log) sent).
Proof.
  induction sent as [|b sent IH]; intros [|r rs] log H; cbn [answers] in H; try (destruct H; fail); [reflexivity|].
  destruct H as [-> H]. apply IH in H. rewrite clock_cons. rewrite H at 1. unfold onBus, u8. rewrite wires_app, app_assoc. reflexivity.
Qed.

(** what one call does *)
Definition does (slave : list wire -> Z -> Z) (bytes : request -> list Z) (call : request -> list wire -> res (bool * list Z * list wire)) (r : request) : Prop :=
  forall w, call r w = Ok (true, stored r (fst (clock slave w (bytes r))), w ++ map Clocked (bytes r)).

Lemma blit_all (mem rs : list Z) : zlen rs = zlen mem -> blit mem 0 rs = rs.
Proof.
  intros H. unfold blit. cbn [Z.to_nat firstn app Nat.add]. rewrite skipn_all2; [apply app_nil_r|]. unfold zlen in H. lia.
Qed.
Lemma slice_all (l : list Z) : slice l 0 (zlen l) = l.
Proof. unfold slice, zlen. cbn [Z.to_nat skipn]. rewrite Nat2Z.id. apply firstn_all. Qed.

Lemma fill_bytes fill n : repeat fill (Z.to_nat (Z.of_nat n / 4 * 4)) ++ repeat 255 (Z.to_nat (Z.of_nat n mod 4)) = ard_bytes fill (Receive n).
Proof.
  unfold ard_bytes. change 4 with (Z.of_nat 4). rewrite <- Nat2Z.inj_div, <- Nat2Z.inj_mod, <- Nat2Z.inj_mul, !Nat2Z.id. reflexivity.
Qed.
Lemma ard_does slave fill r : does slave (ard_bytes fill) (ardCall slave fill) r.
Proof.
  intros w. assert (W : forall sent rs, answers Byte (onBus slave w) [Begin] sent rs ->
      rs = fst (clock slave w sent) /\ wires (([Begin] ++ events Byte sent rs) ++ [End]) = map Clocked sent).
  { intros sent rs A. split.
    - apply answers_clock in A. change (wires [Begin]) with (@nil wire) in A. rewrite app_nil_r in A. exact A.
    - rewrite !wires_app, wires_events by (eapply answers_len_nat; exact A). cbn. apply app_nil_r. }
  destruct r as [d|n|d]; unfold ardCall, sendSync, receiveSync, sendAndReceive, spiTransfer; cbn [app].
  - destruct (write_spec (onBus slave w) fill 0 (zlen d) d [Begin]) as [rs [A E]]; try lia; [apply zlen_nonneg|].
    rewrite E. cbn [bind]. rewrite slice_all in *. destruct (W _ _ A) as [_ W2]. rewrite W2. reflexivity.
  - pose proof (read_spec (onBus slave w) fill 0 (Z.of_nat n) (repeat 0 n) [Begin] ltac:(lia) ltac:(lia) ltac:(rewrite zlen_repeat; lia)) as R. cbv zeta in R.
    rewrite fill_bytes in R. destruct R as [rs [A E]]. rewrite E. cbn [bind]. destruct (W _ _ A) as [W1 W2]. rewrite W2, W1. cbn [stored]. rewrite blit_all; [reflexivity|].
    rewrite clock_len, zlen_repeat. rewrite <- fill_bytes, zlen_app, !zlen_repeat, !Z2Nat.id by (Z.div_mod_to_equations; lia). Z.div_mod_to_equations. lia.
  - destruct (readAndWrite_spec (onBus slave w) fill 0 0 (zlen d) d [Begin]) as [rs [A E]]; try lia; [apply zlen_nonneg|left; reflexivity|].
    rewrite E. cbn [bind]. rewrite slice_all in *. destruct (W _ _ A) as [W1 W2]. rewrite W2, W1, blit_all by apply clock_len. reflexivity.
Qed.

(** ** ESP32 *)
Lemma esp_wires_app slave half idle w a b : espWires slave half idle w (a ++ b) = espWires slave half idle (espWires slave half idle w a) b.
Proof. apply fold_left_app. Qed.
(** which of the two buffers are given, for the modes the requests are meant for *)
Definition mode_ok (half sb rb : bool) : Prop := match sb, rb with true, false => True | false, true => half = true | true, true => half = false | _, _ => False end.
Definition out (idle : Z) (sb : bool) (c : list Z) : list Z := if sb then c else repeat idle (length c).
Lemma out_app idle sb a b : out idle sb (a ++ b) = out idle sb a ++ out idle sb b.
Proof. destruct sb; [reflexivity|]. unfold out. rewrite app_length, repeat_app. reflexivity. Qed.
Definition chunk (sb rb : bool) (at_ : Z) (c : list Z) (rx : Z) : transaction :=
  mkTr (if sb then Some c else None) (if sb then 8 * zlen c else 0) (if rb then Some at_ else None) (if rb then 8 * zlen c else rx).
(** the receive lengths found in the structure when [d] is left to transfer *)
Definition found_ok (half rb : bool) (m : Z) (d : list Z) (rx : Z) : Prop :=
  rb = true \/ half = true /\ rx = 0 \/
  half = false /\ (rx = 0 /\ (zlen d <= m \/ zlen d mod m = 0) \/ rx = 8 * m /\ zlen d mod m = 0 \/ zlen d = 0).
Lemma perform_chunk slave half idle sb rb at_ c rx w : mode_ok half sb rb -> (rb = true \/ half = true /\ rx = 0 \/ half = false /\ rx <= 8 * zlen c) ->
  accepts half (chunk sb rb at_ c rx) = true /\ perform slave half idle w (chunk sb rb at_ c rx) = clock slave w (out idle sb c) \/
  (half = true /\ rb = false /\ accepts half (chunk sb rb at_ c rx) = true /\ snd (perform slave half idle w (chunk sb rb at_ c rx)) = snd (clock slave w (out idle sb c))).
Proof.
  intros M F. unfold accepts, perform, chunk. cbn [rxBits lengthBits txData]. pose proof (zlen_nonneg c) as Hc.
  assert (E8 : 8 * zlen c / 8 = zlen c) by (rewrite Z.mul_comm, Z.div_mul; lia).
  destruct half, sb, rb; cbn [mode_ok] in M; try discriminate M; try contradiction; cbn [orb].
  - right. repeat split. destruct F as [F|[[_ ->]|[F _]]]; try discriminate F. cbn [out Z.div Z.to_nat repeat]. destruct (clock slave w c) as [a b] eqn:E. reflexivity.
  - left. split; [reflexivity|]. cbn [clock out]. rewrite E8. unfold zlen. rewrite Nat2Z.id. reflexivity.
  - left. split; [apply Z.leb_le; lia|reflexivity].
  - left. split; [apply Z.leb_le; destruct F as [F|[[F _]|[_ F]]]; [discriminate F|discriminate F|exact F]|reflexivity].
Qed.
Lemma esp_loop slave half idle sb rb m w : mode_ok half sb rb -> 0 < m -> 8 * m < 4294967296 ->
  forall fuel d pre trs rx, (length d < fuel)%nat -> found_ok half rb m d rx -> exists trs',
    transferLoop fuel (espDriver slave half idle w) m (pre ++ d) trs rx (if sb then Some (zlen pre) else None) (if rb then Some (zlen pre) else None) (zlen d)
    = Ok (true, if rb then pre ++ fst (clock slave (espWires slave half idle w trs) (out idle sb d)) else pre ++ d, trs') /\
    espWires slave half idle w trs' = espWires slave half idle w trs ++ map Clocked (out idle sb d).
Proof.
  intros M Hm Hm8. induction fuel as [|fuel IH]; intros d pre trs rx Hf F; [lia|]. cbn [transferLoop].
  destruct (Z.ltb_spec 0 (zlen d)) as [H|H].
  2:{ destruct d as [|x d]; [|rewrite zlen_cons in H; pose proof (zlen_nonneg d); lia]. exists trs. split.
      - destruct rb; [|reflexivity]. destruct sb; reflexivity.
      - destruct sb; cbn; rewrite app_nil_r; reflexivity. }
  set (e := Z.min (zlen d) m). assert (He : 0 < e <= zlen d) by (subst e; lia).
  destruct (split_at d e) as [c [t [Ed Lc]]]; [lia|]. subst d.
  assert (E8 : u32 (8 * e) = 8 * zlen c) by (unfold u32; rewrite Z.mod_small by (subst e; lia); lia).
  assert (Etx : match (if sb then Some (zlen pre) else None) with Some s => do d <- rd_slice (pre ++ c ++ t) s e; Ok (Some d, u32 (8 * e)) | None => Ok (None, 0) end
    = Ok (if sb then Some c else None, if sb then 8 * zlen c else 0)).
  { destruct sb; [|reflexivity]. rewrite rd_slice_mid by lia. cbn [bind]. rewrite E8. reflexivity. }
  rewrite Etx. cbn [bind fst snd]. rewrite E8.
  assert (Er : match (if rb then Some (zlen pre) else None) with Some _ => 8 * zlen c | None => rx end = (if rb then 8 * zlen c else rx)) by (destruct rb; reflexivity).
  rewrite Er. clear Er Etx.
  change (mkTr (if sb then Some c else None) (if sb then 8 * zlen c else 0) (if rb then Some (zlen pre) else None) (if rb then 8 * zlen c else rx)) with (chunk sb rb (zlen pre) c rx).
  set (w1 := espWires slave half idle w trs).
  assert (Mod : zlen (c ++ t) mod m = 0 -> zlen c = m /\ zlen t mod m = 0).
  { assert (He2 : e = Z.min (zlen c + zlen t) m) by (unfold e; rewrite zlen_app; reflexivity). assert (He1 : 0 < e) by lia. clear - He1 He2 Lc Hm. intros H. rewrite zlen_app in H. pose proof (zlen_nonneg t). assert (m <= zlen c + zlen t) by (apply Z.mod_divide in H; [|lia]; apply Z.divide_pos_le; [lia|exact H]).
    assert (E : zlen c = m) by lia. split; [exact E|]. rewrite E in H. replace (m + zlen t) with (zlen t + 1 * m) in H by lia. rewrite Z.mod_add in H by lia. exact H. }
  assert (F1 : rb = true \/ half = true /\ rx = 0 \/ half = false /\ rx <= 8 * zlen c).
  { destruct F as [F|[F|[F1 [[F2 F3]|[[F2 F3]|F2]]]]]; [left; exact F|right; left; exact F|right; right..]; (split; [exact F1|]); [pose proof (zlen_nonneg c); lia|destruct (Mod F3); lia|lia]. }
  assert (P : accepts half (chunk sb rb (zlen pre) c rx) = true /\ snd (perform slave half idle w1 (chunk sb rb (zlen pre) c rx)) = w1 ++ map Clocked (out idle sb c) /\
              (rb = true -> fst (perform slave half idle w1 (chunk sb rb (zlen pre) c rx)) = fst (clock slave w1 (out idle sb c)))).
  { destruct (perform_chunk slave half idle sb rb (zlen pre) c rx w1 M F1) as [[A B]|[A [B [C D]]]].
    - rewrite B. repeat split; [exact A|apply clock_wires].
    - repeat split; [exact C|rewrite D; apply clock_wires|rewrite B; discriminate]. }
  destruct P as [P1 [P2 P3]].
  assert (Lo : zlen (out idle sb c) = zlen c) by (destruct sb; [reflexivity|unfold out; rewrite zlen_repeat; reflexivity]).
  set (c' := if rb then fst (clock slave w1 (out idle sb c)) else c).
  assert (Lc' : zlen c' = zlen c) by (subst c'; destruct rb; [rewrite clock_len; exact Lo|reflexivity]).
  assert (Ew : espWires slave half idle w (trs ++ [chunk sb rb (zlen pre) c rx]) = w1 ++ map Clocked (out idle sb c)).
  { rewrite esp_wires_app. fold w1. unfold espWires. cbn [fold_left]. rewrite P1. exact P2. }
  assert (Er : espDriver slave half idle w trs (chunk sb rb (zlen pre) c rx) =
    mkReply true (match rxPtr (chunk sb rb (zlen pre) c rx) with Some _ => fst (perform slave half idle w1 (chunk sb rb (zlen pre) c rx)) | None => [] end)
      (if negb half && (rxBits (chunk sb rb (zlen pre) c rx) =? 0) then lengthBits (chunk sb rb (zlen pre) c rx) else rxBits (chunk sb rb (zlen pre) c rx)))
    by (unfold espDriver; rewrite P1; reflexivity).
  rewrite Er. clear Er. cbn [accepted received rxLeft].
  assert (Em : match (if rb then Some (zlen pre) else None) with Some r => wr_slice (pre ++ c ++ t) r (match rxPtr (chunk sb rb (zlen pre) c rx) with Some _ => fst (perform slave half idle w1 (chunk sb rb (zlen pre) c rx)) | None => [] end) | None => Ok (pre ++ c ++ t) end = Ok ((pre ++ c') ++ t)).
  { destruct rb; [|rewrite <- app_assoc; reflexivity]. unfold chunk at 1. cbn [rxPtr]. rewrite P3 by reflexivity. fold c'. rewrite wr_slice_mid by lia. rewrite <- app_assoc. reflexivity. }
  rewrite Em. cbn [bind]. rewrite zlen_app. replace (zlen c + zlen t - e) with (zlen t) by lia.
  assert (Es : forall b : bool, match (if b then Some (zlen pre) else None) with Some s => Some (s + e) | None => None end = (if b then Some (zlen (pre ++ c')) else None)).
  { intros b. destruct b; [|reflexivity]. rewrite zlen_app. f_equal. lia. }
  rewrite !Es.
    destruct (IH t (pre ++ c') (trs ++ [chunk sb rb (zlen pre) c rx]) (if negb half && (rxBits (chunk sb rb (zlen pre) c rx) =? 0) then lengthBits (chunk sb rb (zlen pre) c rx) else rxBits (chunk sb rb (zlen pre) c rx))) as [trs' [E1 E2]].
  { rewrite app_length in Hf. unfold zlen in Lc. lia. }
  { unfold found_ok in *. destruct rb; [left; reflexivity|right]. unfold chunk. cbn [rxBits lengthBits]. destruct F as [F|[[F2 F3]|[F2 F3]]]; [discriminate F|left; subst; split; reflexivity|right].
    split; [exact F2|]. subst half. destruct sb; [|destruct M]. cbn [negb andb]. pose proof (zlen_nonneg t) as Ht.
    destruct F3 as [[-> [F3|F3]]|[[-> F3]|F3]].
    - right. right. rewrite zlen_app in F3. assert (He2 : e = Z.min (zlen c + zlen t) m) by (unfold e; rewrite zlen_app; reflexivity). lia.
    - destruct (Mod F3) as [F4 F5]. right. left. rewrite F4. split; [reflexivity|exact F5].
    - destruct (Mod F3) as [F4 F5]. right. left. replace (8 * m =? 0) with false by lia. split; [reflexivity|exact F5].
    - lia. }
  exists trs'. rewrite E1, E2, Ew, out_app, map_app. split; [|rewrite <- app_assoc; reflexivity].
  f_equal. f_equal. f_equal. subst c'. destruct rb; [|rewrite <- app_assoc; reflexivity]. rewrite <- app_assoc. f_equal. symmetry. apply clock_app.
Qed.
Lemma esp_does slave half idle m r : 0 < m -> 8 * m < 4294967296 -> meant_for half m r -> does slave (esp_bytes idle) (espCall slave half idle m) r.
Proof.
  intros Hm Hm8 M w. destruct r as [d|n|d]; cbn [meant_for] in M; unfold espCall, espTransfer.
  - destruct (esp_loop slave half idle true false m w I Hm Hm8 (S (length d)) d [] [] 0 ltac:(lia)) as [trs [E1 E2]].
    { unfold found_ok. destruct half; [right; left; split; reflexivity|right; right]. split; [reflexivity|]. left. split; [reflexivity|]. destruct M as [M|M]; [discriminate M|exact M]. }
    cbn [app] in E1. change (zlen (@nil Z)) with 0 in E1. rewrite E1. cbn [bind]. rewrite E2. reflexivity.
  - destruct (esp_loop slave half idle false true m w M Hm Hm8 (S n) (repeat 0 n) [] [] 0 ltac:(rewrite repeat_length; lia) (or_introl eq_refl)) as [trs [E1 E2]]. cbn [app] in E1.
    change (zlen (@nil Z)) with 0 in E1. rewrite zlen_repeat in E1. rewrite E1. cbn [bind]. rewrite E2. unfold out. rewrite repeat_length. reflexivity.
  - destruct (esp_loop slave half idle true true m w M Hm Hm8 (S (length d)) d [] [] 0 ltac:(lia) (or_introl eq_refl)) as [trs [E1 E2]]. cbn [app] in E1.
    change (zlen (@nil Z)) with 0 in E1. rewrite E1. cbn [bind]. rewrite E2. reflexivity.
Qed.

(** ** What the devices see *)
Lemma seen_app p a b : seen p (a ++ b) = fold_left (see p) b (seen p a).
Proof. apply fold_left_app. Qed.
Lemma seen_idle p w : selected p w = false -> seen p w = (false, frames p w, []).
Proof.
  unfold selected, frames. revert w. refine (rev_ind _ _ _); [reflexivity|]. intros x w IH. rewrite seen_app. cbn [fold_left].
  destruct (seen p w) as [[sel fs] cur]. cbn [fst snd] in IH. unfold see. destruct x as [q high|b].
  - destruct (q =? p); [|cbn [fst snd]; intros ->; apply IH; reflexivity]. destruct high; [reflexivity|]. destruct sel; cbn [fst snd]; discriminate.
  - destruct sel; cbn [fst snd]; [discriminate|exact IH].
Qed.
Lemma clocked_seen p data : forall w fs cur, seen p w = (true, fs, cur) -> seen p (w ++ map Clocked data) = (true, fs, cur ++ data).
Proof.
  induction data as [|b data IH]; intros w fs cur H; cbn [map]; [rewrite !app_nil_r; exact H|].
  change (Clocked b :: map Clocked data) with ([Clocked b] ++ map Clocked data). rewrite app_assoc. rewrite (IH _ fs (cur ++ [b])); [rewrite <- app_assoc; reflexivity|].
  rewrite seen_app, H. reflexivity.
Qed.
Lemma clocked_unseen p data : forall w, selected p w = false -> seen p (w ++ map Clocked data) = seen p w.
Proof.
  induction data as [|b data IH]; intros w H; cbn [map]; [rewrite app_nil_r; reflexivity|].
  change (Clocked b :: map Clocked data) with ([Clocked b] ++ map Clocked data). rewrite app_assoc.
  assert (E : seen p (w ++ [Clocked b]) = seen p w) by (rewrite seen_app, (seen_idle p w H); reflexivity).
  rewrite IH; [exact E|]. unfold selected. rewrite E. exact H.
Qed.

(** the device on pin [p] alone is selected *)
Definition only (pins : list Z) (p : Z) (fs : list (list Z)) (cur : list Z) (w : list wire) : Prop :=
  seen p w = (true, fs, cur) /\ forall q, In q pins -> q <> p -> selected q w = false.
Lemma only_clocked pins p fs cur w data : only pins p fs cur w -> only pins p fs (cur ++ data) (w ++ map Clocked data).
Proof.
  intros [A B]. split; [apply clocked_seen; exact A|]. intros q Hq Hn. unfold selected. rewrite clocked_unseen; apply B; assumption.
Qed.
Lemma filter_only (f : Z -> bool) p : forall pins, NoDup pins -> In p pins -> f p = true -> (forall q, In q pins -> q <> p -> f q = false) -> filter f pins = [p].
Proof.
  induction pins as [|x pins IH]; intros N I Hp Hq; [destruct I|]. inversion N as [|? ? N1 N2]; subst. cbn [filter]. destruct I as [->|I].
  - rewrite Hp. f_equal. assert (E : forall l, (forall q, In q l -> f q = false) -> filter f l = []).
    { induction l as [|y l IHl]; intros H; [reflexivity|]. cbn [filter]. rewrite (H y) by (left; reflexivity). apply IHl. intros q Hx. apply H. right. exact Hx. }
    apply E. intros q Hx. apply Hq; [right; exact Hx|]. intros ->. apply N1. exact Hx.
  - rewrite (Hq x); [|left; reflexivity|intros ->; apply N1; exact I]. apply IH; try assumption. intros q Hx. apply Hq. right. exact Hx.
Qed.
Lemma clock_shared pins dev noise p : NoDup pins -> In p pins -> forall data w fs cur, only pins p fs cur w ->
  fst (clock (shared pins dev noise) w data) = replies (dev p) fs cur data.
Proof.
  intros N Hin data. induction data as [|b data IH]; intros w fs cur [A B]; [reflexivity|]. rewrite clock_cons. cbn [replies]. f_equal.
  - unfold u8. f_equal. unfold shared. rewrite (filter_only _ p) by (try assumption; unfold selected; rewrite A; reflexivity).
    unfold frames, current. rewrite A. reflexivity.
  - apply (IH _ fs (cur ++ [b])). change [Clocked b] with (map Clocked [b]). apply only_clocked. split; assumption.
Qed.
Lemma calls_alone pins dev noise bytes call p : NoDup pins -> In p pins ->
  forall rs w fs cur, Forall (does (shared pins dev noise) bytes call) rs -> only pins p fs cur w ->
    calls call rs w = Ok (alone bytes (dev p) fs cur rs, w ++ map Clocked (flat_map bytes rs)).
Proof.
  intros N Hin rs. induction rs as [|r rs IH]; intros w fs cur Hd Ho; cbn [calls alone flat_map map]; [rewrite app_nil_r; reflexivity|].
  inversion Hd as [|? ? D1 D2]; subst. rewrite D1. cbn [bind]. rewrite (IH _ fs (cur ++ bytes r) D2) by (apply only_clocked; exact Ho).
  cbn [bind]. rewrite (clock_shared pins dev noise p N Hin _ w fs cur Ho). rewrite map_app, <- app_assoc. reflexivity.
Qed.
Lemma talk_alone pins dev noise bytes call p rs w : NoDup pins -> In p pins -> Forall (does (shared pins dev noise) bytes call) rs ->
  (forall q, In q pins -> selected q w = false) ->
  exists w', talk call p rs w = Ok (alone bytes (dev p) (frames p w) [] rs, w') /\ (forall q, In q pins -> selected q w' = false) /\
    forall q, In q pins -> frames q w' = frames q w ++ (if p =? q then [flat_map bytes rs] else []).
Proof.
  intros N Hin Hd Hw.
  assert (Ho : only pins p (frames p w) [] (w ++ [Pin p false])).
  { split.
    - rewrite seen_app, (seen_idle p w (Hw p Hin)). cbn [fold_left see]. rewrite Z.eqb_refl. reflexivity.
    - intros q Hq Hn. unfold selected. rewrite seen_app, (seen_idle q w (Hw q Hq)). cbn [fold_left see]. rewrite (proj2 (Z.eqb_neq p q)) by congruence. reflexivity. }
  eexists. split; [unfold talk; rewrite (calls_alone pins dev noise bytes call p N Hin rs _ _ _ Hd Ho); reflexivity|].
  assert (S : forall q, In q pins -> seen q (((w ++ [Pin p false]) ++ map Clocked (flat_map bytes rs)) ++ [Pin p true]) = (false, frames q w ++ (if p =? q then [flat_map bytes rs] else []), [])).
  { intros q Hq. rewrite seen_app. destruct (Z.eqb_spec p q) as [<-|Hn].
    - rewrite (clocked_seen p _ _ _ _ (proj1 Ho)). cbn [fold_left see]. rewrite Z.eqb_refl. reflexivity.
    - rewrite clocked_unseen by (apply (proj2 Ho); congruence). rewrite seen_app, (seen_idle q w (Hw q Hq)). cbn [fold_left see].
      unfold see. rewrite (proj2 (Z.eqb_neq p q)) by congruence. cbv iota beta. rewrite app_nil_r. reflexivity. }
  split; intros q Hq; [unfold selected|unfold frames at 1]; rewrite (S q Hq); reflexivity.
Qed.
Lemma its_cons bytes p s ss : its_frames bytes p (s :: ss) = (if fst s =? p then [flat_map bytes (snd s)] else []) ++ its_frames bytes p ss.
Proof. unfold its_frames. cbn [filter]. destruct (fst s =? p); reflexivity. Qed.
Lemma talks_alone pins dev noise bytes call : NoDup pins ->
  forall ss w, Forall (fun s => In (fst s) pins /\ Forall (does (shared pins dev noise) bytes call) (snd s)) ss ->
  (forall q, In q pins -> selected q w = false) ->
  exists ls w', talks call ss w = Ok (ls, w') /\ length ls = length ss /\
    (forall k p rs, nth_error ss k = Some (p, rs) -> nth_error ls k = Some (alone bytes (dev p) (frames p w ++ its_frames bytes p (firstn k ss)) [] rs)) /\
    forall q, In q pins -> selected q w' = false /\ frames q w' = frames q w ++ its_frames bytes q ss.
Proof.
  intros N ss. induction ss as [|[p rs] ss IH]; intros w Hs Hw.
  - exists [], w. split; [reflexivity|]. split; [reflexivity|]. split; [intros [|k] p rs H; discriminate H|].
    intros q Hq. split; [apply Hw; exact Hq|]. cbn. symmetry. apply app_nil_r.
  - inversion Hs as [|? ? [S1 S2] S3]; subst. cbn [fst snd] in S1, S2. cbn [talks].
    destruct (talk_alone pins dev noise bytes call p rs w N S1 S2 Hw) as [w1 [E1 [A1 B1]]]. rewrite E1. cbn [bind].
    destruct (IH w1 S3 A1) as [ls [w2 [E2 [L2 [C2 D2]]]]]. rewrite E2. cbn [bind]. eexists _, w2. split; [reflexivity|]. split; [cbn [length]; rewrite L2; reflexivity|]. split.
    + intros [|k] q rs' H; cbn [nth_error] in *.
      * injection H as <- <-. cbn. rewrite app_nil_r. reflexivity.
      * rewrite (C2 k q rs' H). rewrite B1.
        2:{ apply nth_error_In in H. rewrite Forall_forall in S3. apply (S3 _ H). }
        cbn [firstn]. rewrite its_cons. cbn [fst snd]. rewrite app_assoc. reflexivity.
    + intros q Hq. destruct (D2 q Hq) as [D3 D4]. split; [exact D3|]. rewrite D4, (B1 q Hq), its_cons, app_assoc. reflexivity.
Qed.
