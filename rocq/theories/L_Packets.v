(** Lemmas about packets received one after the other. *)
From Verif Require Import Base S_Uart S_Packets M_UartEsp M_UartArduino L_UartEsp L_UartArduino.

Lemma starts_app {A} (rx : nat -> A) l m : starts rx (l ++ m) -> starts rx l /\ starts (fun i => rx (length l + i)%nat) m.
Proof.
  intros H. split; intros i a E.
  - apply H. rewrite nth_error_app1; [exact E|]. apply nth_error_Some. congruence.
  - apply H. rewrite nth_error_app2 by lia. replace (length l + i - length l)%nat with i by lia. exact E.
Qed.
Lemma starts_cons {A} (rx : nat -> A) a l : starts rx (a :: l) -> rx O = a /\ starts (fun i => rx (S i)) l.
Proof. intros H. split; [apply H; reflexivity|]. intros i b E. apply H. exact E. Qed.
Lemma starts_ext {A} (f g : nat -> A) l : (forall i, f i = g i) -> starts f l -> starts g l.
Proof. intros H K i a E. rewrite <- H. apply K. exact E. Qed.

(** *** ESP32: the search *)
Lemma findLoop_noise s start max noise : start <= max -> ~ In s noise -> forall fuel rx x mem nr ws,
  (length noise < fuel)%nat -> starts (fun i => rx (nr + i)%nat) (map Some noise ++ [Some s]) ->
  exists ws', findLoop fuel rx s start max (x :: mem) nr ws = Ok (true, s :: mem, (nr + S (length noise))%nat, ws').
Proof.
  intros Ht. induction noise as [|b noise IH]; intros Hn fuel rx x mem nr ws Hf HS; (destruct fuel as [|fuel]; [cbn [length] in Hf; lia|]);
    cbn [findLoop map app length] in *; (replace (start <=? max) with true by (symmetry; apply Z.leb_le; lia)).
  - apply starts_cons in HS. destruct HS as [E _]. rewrite Nat.add_0_r in E. rewrite E.
    replace (wr (x :: mem) 0 s) with (@Ok (list Z) (s :: mem)) by (symmetry; apply (overwrite_next (x :: mem) [] s); unfold zlen; cbn [length]; lia).
    cbn [bind]. change (rd (s :: mem) 0) with (rd (overwritten (s :: mem) ([] ++ [s])) (zlen (@nil Z))). rewrite read_next. cbn [bind].
    rewrite Z.eqb_refl. eexists. rewrite Nat.add_1_r. reflexivity.
  - apply starts_cons in HS. destruct HS as [E HS]. rewrite Nat.add_0_r in E. rewrite E.
    replace (wr (x :: mem) 0 b) with (@Ok (list Z) (b :: mem)) by (symmetry; apply (overwrite_next (x :: mem) [] b); unfold zlen; cbn [length]; lia).
    cbn [bind]. change (rd (b :: mem) 0) with (rd (overwritten (b :: mem) ([] ++ [b])) (zlen (@nil Z))). rewrite read_next. cbn [bind].
    replace (b =? s) with false by (symmetry; apply Z.eqb_neq; intros ->; apply Hn; left; reflexivity).
    destruct (IH ltac:(intros K; apply Hn; right; exact K) fuel rx b mem (S nr) (ws ++ [u32 (max - start)])) as [ws' E2]; [lia| |].
    { revert HS. apply starts_ext. intros i. f_equal. lia. }
    exists ws'. rewrite E2. rewrite Nat.add_succ_comm. reflexivity.
Qed.
(** *** ESP32: the rest *)
Lemma restLoop_packet e max mem size : size < 65536 -> size <= zlen mem -> forall os fuel ticks rx got nt nr ws,
  ~ In e (bytes_of os) -> zlen got + zlen (bytes_of os) + 1 <= size -> (length os < fuel)%nat ->
  starts (fun i => rx (nr + i)%nat) (os ++ [Some e]) -> (forall i, (i <= length os)%nat -> ticks (nt + i)%nat <= max) ->
  exists o, restLoop fuel ticks rx size e max (overwritten mem got) (zlen got) nt nr ws = Ok o /\
    omem o = overwritten mem (got ++ bytes_of os ++ [e]) /\ ocount o = zlen got + zlen (bytes_of os) + 1 /\ reads o = (nr + S (length os))%nat.
Proof.
  intros Hsz Hm. induction os as [|a os IH]; intros fuel ticks rx got nt nr ws Hn Hl Hf HS Ht; (destruct fuel as [|fuel]; [cbn [length] in Hf; lia|]);
    pose proof (zlen_nonneg got) as Hg; cbn [restLoop app length] in *; cbv zeta;
    pose proof (Ht O ltac:(lia)) as H0; rewrite Nat.add_0_r in H0; (replace (ticks nt <=? max) with true by (symmetry; apply Z.leb_le; lia)).
  - cbn [bytes_of flat_map] in *. change (zlen (@nil Z)) with 0 in *. replace (zlen got =? size) with false by (symmetry; apply Z.eqb_neq; lia).
    apply starts_cons in HS. destruct HS as [E _]. rewrite Nat.add_0_r in E. rewrite E. rewrite overwrite_next by lia. cbn [bind].
    rewrite read_next. cbn [bind]. rewrite Z.eqb_refl. eexists. split; [reflexivity|]. cbn [omem ocount reads app].
    split; [reflexivity|]. split; [unfold u16; rewrite Z.mod_small by lia; lia|lia].
  - apply starts_cons in HS. destruct HS as [E HS]. rewrite Nat.add_0_r in E.
    assert (HS' : starts (fun i => rx (S nr + i)%nat) (os ++ [Some e])) by (revert HS; apply starts_ext; intros i; f_equal; lia).
    assert (Ht' : forall i, (i <= length os)%nat -> ticks (S nt + i)%nat <= max) by (intros i Hi; specialize (Ht (S i) ltac:(lia)); rewrite <- Nat.add_succ_comm in Ht; exact Ht).
    destruct a as [b|]; cbn [bytes_of flat_map app] in *; fold (bytes_of os) in *.
    + change (zlen (b :: bytes_of os)) with (Z.of_nat (S (length (bytes_of os)))) in *. rewrite Nat2Z.inj_succ in *. fold (zlen (bytes_of os)) in *.
      pose proof (zlen_nonneg (bytes_of os)). replace (zlen got =? size) with false by (symmetry; apply Z.eqb_neq; lia).
      rewrite E, overwrite_next by lia. cbn [bind]. rewrite read_next. cbn [bind].
      replace (b =? e) with false by (symmetry; apply Z.eqb_neq; intros ->; apply Hn; left; reflexivity).
      replace (u16 (zlen got + 1)) with (zlen (got ++ [b])) by (rewrite zlen_app; change (zlen [b]) with 1; unfold u16; rewrite Z.mod_small; lia).
      destruct (IH fuel ticks rx (got ++ [b]) (S nt) (S nr) (ws ++ [u32 (max - ticks nt)])) as (o & Eo & O1 & O2 & O3); try assumption.
      * intros K. apply Hn. right. exact K.
      * rewrite zlen_app. change (zlen [b]) with 1. lia.
      * lia.
      * exists o. split; [exact Eo|]. rewrite O1, O2, O3, zlen_app, <- app_assoc. change (zlen [b]) with 1. split; [reflexivity|]. split; lia.
    + pose proof (zlen_nonneg (bytes_of os)). replace (zlen got =? size) with false by (symmetry; apply Z.eqb_neq; lia). rewrite E.
      destruct (IH fuel ticks rx got (S nt) (S nr) (ws ++ [u32 (max - ticks nt)])) as (o & Eo & O1 & O2 & O3); try assumption; [lia|].
      exists o. split; [exact Eo|]. rewrite O1, O2, O3. split; [reflexivity|]. split; lia.
Qed.
Lemma firstn_overwritten mem data : firstn (length data) (overwritten mem data) = data.
Proof. unfold overwritten. rewrite firstn_app, firstn_all, Nat.sub_diag. cbn [firstn]. apply app_nil_r. Qed.

Lemma esp_packet fuel ticks rx mem size s e t a :
  size < 65536 -> size <= zlen mem -> 0 <= t -> arrives s e a -> on_time t a ticks -> zlen (packet s e (abody a)) <= size ->
  (length (answers s e a) <= fuel)%nat -> starts rx (answers s e a) ->
  exists o, espReceiveBetween fuel ticks rx mem size s e t = Ok o /\ omem o = overwritten mem (packet s e (abody a)) /\
    ocount o = zlen (packet s e (abody a)) /\ reads o = length (answers s e a).
Proof.
  intros Hsz Hm Ht (Hn & Hb & Ho) [Hw Hc] Hl Hf HS. unfold espReceiveBetween, packet, answers in *.
  rewrite zlen_cons, zlen_app in Hl. change (zlen [e]) with 1 in Hl. pose proof (zlen_nonneg (abody a)).
  replace (size <? 2) with false by (symmetry; apply Z.ltb_ge; lia).
  rewrite app_length in Hf. cbn [length] in Hf. rewrite map_length, app_length in Hf. cbn [length] in Hf.
  destruct mem as [|x mem]; [change (zlen (@nil Z)) with 0 in Hm; lia|].
  pose proof (Hc O ltac:(lia)) as H0. assert (EM : u32 (ticks O + t) = ticks O + t) by (unfold u32; apply Z.mod_small; lia). rewrite EM.
  destruct (findLoop_noise s (ticks O) (ticks O + t) (noise a) ltac:(lia) Hn fuel rx x mem O []) as [ws E1]; [lia| |].
  { change (fun i => rx (0 + i)%nat) with rx. replace (map Some (noise a) ++ Some s :: others a ++ [Some e]) with ((map Some (noise a) ++ [Some s]) ++ others a ++ [Some e]) in HS by (rewrite <- app_assoc; reflexivity).
    apply starts_app in HS. exact (proj1 HS). }
  rewrite E1. cbn [bind]. change (s :: mem) with (overwritten (x :: mem) [s]). change 1 with (zlen [s]) at 1.
  destruct (restLoop_packet e (ticks O + t) (x :: mem) size Hsz Hm (others a) fuel ticks rx [s] 1 (0 + S (length (noise a))) ws) as (o & E2 & O1 & O2 & O3).
  - rewrite Ho. exact Hb.
  - rewrite Ho. change (zlen [s]) with 1. lia.
  - lia.
  - replace (map Some (noise a) ++ Some s :: others a ++ [Some e]) with ((map Some (noise a) ++ [Some s]) ++ others a ++ [Some e]) in HS by (rewrite <- app_assoc; reflexivity).
    apply starts_app in HS. destruct HS as [_ HS]. revert HS. apply starts_ext. intros i. rewrite app_length, map_length. cbn [length]. f_equal. lia.
  - intros i Hi. apply (Hc (1 + i)%nat). lia.
  - exists o. split; [exact E2|]. rewrite O1, O2, O3, Ho. split; [reflexivity|]. change (zlen [s]) with 1. rewrite zlen_cons, zlen_app, app_length. cbn [length].
    rewrite map_length, app_length. cbn [length]. change (zlen [e]) with 1. split; lia.
Qed.

(** *** Arduino *)
Lemma searchLoop_noise s t max noise rest : ~ In s noise -> forall fuel ticks line nt nr,
  (length noise < fuel)%nat -> (t <> 0 -> forall i, (i <= length noise)%nat -> ticks (nt + i)%nat < max) ->
  (forall i, nth_error (noise ++ s :: rest) i = nth_error line (nr + i)) ->
  exists nt', searchLoop fuel ticks (next_bytes line) s t max nt nr = Ok (true, nt', (nr + S (length noise))%nat).
Proof.
  induction noise as [|b noise IH]; intros Hn fuel ticks line nt nr Hf Ht HL; (destruct fuel as [|fuel]; [cbn [length] in Hf; lia|]);
    cbn [searchLoop length] in *; unfold next_bytes in *.
  - assert (G : exists nt', (if t =? 0 then (true, nt) else (ticks nt <? max, S nt)) = (true, nt')).
    { destruct (Z.eqb_spec t 0) as [E|E]; [eexists; reflexivity|]. specialize (Ht E O ltac:(lia)). rewrite Nat.add_0_r in Ht.
      replace (ticks nt <? max) with true by (symmetry; apply Z.ltb_lt; exact Ht). eexists; reflexivity. }
    destruct G as [nt' ->]. specialize (HL O). rewrite Nat.add_0_r in HL. cbn [app nth_error] in HL. rewrite <- HL, Z.eqb_refl.
    exists nt'. rewrite Nat.add_1_r. reflexivity.
  - assert (G : exists nt', (if t =? 0 then (true, nt) else (ticks nt <? max, S nt)) = (true, nt') /\ (t <> 0 -> nt' = S nt)).
    { destruct (Z.eqb_spec t 0) as [E|E]; [eexists; split; [reflexivity|intros; congruence]|]. specialize (Ht E O ltac:(lia)). rewrite Nat.add_0_r in Ht.
      replace (ticks nt <? max) with true by (symmetry; apply Z.ltb_lt; exact Ht). eexists; split; reflexivity. }
    destruct G as (nt' & -> & Hnt). pose proof (HL O) as H0. rewrite Nat.add_0_r in H0. cbn [app nth_error] in H0. rewrite <- H0.
    replace (b =? s) with false by (symmetry; apply Z.eqb_neq; intros ->; apply Hn; left; reflexivity).
    destruct (IH ltac:(intros K; apply Hn; right; exact K) fuel ticks line nt' (S nr)) as [nt2 E2]; [lia| | |].
    + intros T i Hi. rewrite (Hnt T). specialize (Ht T (S i) ltac:(lia)). rewrite <- Nat.add_succ_comm in Ht. exact Ht.
    + intros i. specialize (HL (S i)). rewrite <- Nat.add_succ_comm in HL. exact HL.
    + exists nt2. unfold next_bytes in E2. rewrite E2. rewrite Nat.add_succ_comm. reflexivity.
Qed.
Lemma readBytesUntil_body timed T e limit x mem : forall body fuel got n rest,
  ~ In e body -> zlen got + zlen body <= limit -> zlen got + zlen body + 1 <= zlen mem -> (length body < fuel)%nat ->
  (forall i, timed (n + i)%nat T = nth_error (body ++ e :: rest) i) ->
  readBytesUntil fuel timed T e limit (overwritten (x :: mem) (x :: got)) 1 (zlen got) n =
    Ok (overwritten (x :: mem) (x :: got ++ body), zlen got + zlen body,
        if zlen got + zlen body =? limit then (n + length body)%nat else (n + S (length body))%nat).
Proof.
  induction body as [|b body IH]; intros fuel got n rest Hn Hl Hm Hf HT; (destruct fuel as [|fuel]; [cbn [length] in Hf; lia|]);
    pose proof (zlen_nonneg got) as Hg; cbn [readBytesUntil length] in *.
  - change (zlen (@nil Z)) with 0 in *. rewrite Z.add_0_r in *. rewrite app_nil_r. destruct (Z.eqb_spec (zlen got) limit) as [E|E].
    + replace (zlen got <? limit) with false by (symmetry; apply Z.ltb_ge; lia). do 2 f_equal. lia.
    + replace (zlen got <? limit) with true by (symmetry; apply Z.ltb_lt; lia). specialize (HT O). rewrite Nat.add_0_r in HT. cbn [app nth_error] in HT.
      rewrite HT, Z.eqb_refl. do 2 f_equal. lia.
  - rewrite zlen_cons in *. pose proof (zlen_nonneg body). replace (zlen got <? limit) with true by (symmetry; apply Z.ltb_lt; lia).
    pose proof (HT O) as H0. rewrite Nat.add_0_r in H0. cbn [app nth_error] in H0. rewrite H0.
    replace (b =? e) with false by (symmetry; apply Z.eqb_neq; intros ->; apply Hn; left; reflexivity).
    replace (1 + zlen got) with (zlen (x :: got)) by (rewrite zlen_cons; lia). rewrite overwrite_next by (rewrite !zlen_cons; lia). cbn [bind app].
    replace (zlen got + 1) with (zlen (got ++ [b])) by (rewrite zlen_app; reflexivity).
    rewrite (IH fuel (got ++ [b]) (S n) rest).
    + rewrite zlen_app, <- app_assoc. change (zlen [b]) with 1. cbn [app]. replace (zlen got + 1 + zlen body) with (zlen got + (1 + zlen body)) by lia.
      do 2 f_equal. destruct (_ =? limit); lia.
    + intros K. apply Hn. right. exact K.
    + rewrite zlen_app. change (zlen [b]) with 1. lia.
    + rewrite zlen_app. change (zlen [b]) with 1. lia.
    + lia.
    + intros i. specialize (HT (S i)). rewrite <- Nat.add_succ_comm in HT. exact HT.
Qed.
Lemma ard_packet fuel ticks timed old line mem size s e t noise body rest :
  size < 65536 -> size <= zlen mem -> 0 <= t -> is_byte s -> ~ In s noise -> packet_body e body -> zlen (packet s e body) <= size ->
  in_time t (length noise) ticks -> (length noise + length body < fuel)%nat -> line = noise ++ packet s e body ++ rest ->
  ((forall i T, timed i T = nth_error line (S (length noise) + i)) ->
   exists o, ardReceiveBetween fuel ticks (next_bytes line) timed old mem size s e t = Ok o /\
     amem o = overwritten mem (packet s e body) /\ acount o = zlen (packet s e body) /\
     aTimed o = (if zlen (packet s e body) =? size then length body else S (length body))) /\
  (forall o, ardReceiveBetween fuel ticks (next_bytes line) timed old mem size s e t = Ok o -> aReads o = S (length noise)).
Proof.
  intros Hsz Hm Ht Hs Hn Hb Hl Hc Hf EL. unfold ardReceiveBetween.
  assert (HZ : zlen (packet s e body) = zlen body + 2) by (unfold packet; rewrite zlen_cons, zlen_app; change (zlen [e]) with 1; lia).
  pose proof (zlen_nonneg body) as Hb0.
  destruct (searchLoop_noise s t (u32 (ticks O + t)) noise (body ++ [e] ++ rest) Hn fuel ticks line 1 0) as [nt E1]; [lia| | |].
  { intros T i Hi. exact (Hc T i Hi). }
  { intros i. rewrite EL. unfold packet. cbn [Nat.add app]. rewrite <- app_assoc. reflexivity. }
  rewrite E1. cbn [bind Nat.add].
  destruct mem as [|x mem]; [change (zlen (@nil Z)) with 0 in Hm; lia|].
  replace (u8 s) with s by (unfold is_byte in Hs; unfold u8; rewrite Z.mod_small; lia).
  replace (wr (x :: mem) 0 s) with (@Ok (list Z) (s :: mem)) by (symmetry; apply (overwrite_next (x :: mem) [] s); unfold zlen; cbn [length]; lia).
  cbn [bind]. replace (u32 (size - 1 - 1)) with (size - 2) by (unfold u32; rewrite Z.mod_small; lia). split.
  - intros HT. rewrite zlen_cons in Hm. change (s :: mem) with (overwritten (s :: mem) (s :: [])).
    pose proof (readBytesUntil_body timed (if 0 <? t then t else old) e (size - 2) s mem body fuel [] 0 rest Hb) as R.
    change (zlen (@nil Z)) with 0 in R. rewrite !Z.add_0_l in R. rewrite R; clear R; [|lia|lia|lia|].
    + cbn [bind app]. replace (u16 (1 + zlen body)) with (zlen (s :: body)) by (rewrite zlen_cons; unfold u16; rewrite Z.mod_small; lia).
      rewrite overwrite_next by (rewrite !zlen_cons; lia). cbn [bind]. eexists. split; [reflexivity|]. cbn [amem acount aTimed].
      split; [reflexivity|]. split; [rewrite HZ, zlen_cons; unfold u16; rewrite Z.mod_small; lia|].
      rewrite HZ. replace (zlen body + 2 =? size) with (zlen body =? size - 2); [reflexivity|].
      destruct (Z.eqb_spec (zlen body) (size - 2)), (Z.eqb_spec (zlen body + 2) size); lia.
    + intros i. cbn [Nat.add]. rewrite HT, EL. unfold packet. rewrite nth_error_app2 by lia.
      replace (S (length noise + i) - length noise)%nat with (S i) by lia. cbn [app nth_error]. rewrite <- app_assoc. reflexivity.
  - intros o E. destruct (readBytesUntil _ _ _ _ _ _ _ _ _) as [[[b n] k]| |]; try discriminate. cbn [bind] in E.
    destruct (wr _ _ _); try discriminate. cbn [bind] in E. apply Ok_inj in E. subst o. reflexivity.
Qed.
Lemma in_time_le t n m ticks : (n <= m)%nat -> in_time t m ticks -> in_time t n ticks.
Proof. intros H K T i Hi. apply K; [exact T|lia]. Qed.
Lemma skipn_app_exact {A} (l m : list A) : skipn (length l) (l ++ m) = m.
Proof. induction l as [|x l IH]; [reflexivity|exact IH]. Qed.
Lemma ard_packets fuel old size s e t : size < 65536 -> 0 <= t -> is_byte s -> forall ps cs pre mem tail,
  size <= zlen mem -> Forall (clean s e) ps -> Forall (fun p => zlen (packet s e (snd p)) <= size /\ (s = e -> zlen (packet s e (snd p)) < size)) ps ->
  Forall (fun p => (length (fst p) + length (snd p) + 1 < fuel)%nat) ps ->
  Forall2 (fun p c => in_time t (S (length (fst p))) c) ps cs -> (pre = [] \/ (pre = [e] /\ s <> e)) ->
  (exists l, ard_session fuel old size s e t cs (pre ++ line_of s e ps ++ tail) mem l) /\
  (forall l, ard_session fuel old size s e t cs (pre ++ line_of s e ps ++ tail) mem l -> l = map (fun p => packet s e (snd p)) ps).
Proof.
  intros Hsz Ht Hs. induction ps as [|p ps IH]; intros cs pre mem tail Hm Hc Hl Hf HT Hp; inversion HT; subst; clear HT.
  - split; [eexists; constructor|]. intros l H. inversion H. reflexivity.
  - rename y into ticks, l' into cs.
    pose proof (Forall_inv Hc) as [Hn Hb]. pose proof (Forall_inv Hl) as [L1 L2]. pose proof (Forall_inv Hf) as Hf1. cbn beta in Hf1.
    assert (Hn' : ~ In s (pre ++ fst p)).
    { rewrite in_app_iff. intros [K|K]; [|exact (Hn K)]. destruct Hp as [->|[-> N]]; [exact K|]. destruct K as [K|[]]. congruence. }
    assert (Hpl : (length pre <= 1)%nat) by (destruct Hp as [->|[-> _]]; cbn; lia).
    assert (EL : pre ++ line_of s e (p :: ps) ++ tail = (pre ++ fst p) ++ packet s e (snd p) ++ line_of s e ps ++ tail)
      by (unfold line_of; cbn [flat_map]; rewrite <- !app_assoc; reflexivity).
    assert (Hit : in_time t (length (pre ++ fst p)) ticks) by (eapply in_time_le; [|eassumption]; rewrite app_length; lia).
    assert (Hfu : (length (pre ++ fst p) + length (snd p) < fuel)%nat) by (rewrite app_length; lia).
    set (line := pre ++ line_of s e (p :: ps) ++ tail) in *.
    set (pre2 := if zlen (packet s e (snd p)) =? size then [e] else @nil Z).
    assert (Hp2 : pre2 = [] \/ (pre2 = [e] /\ s <> e)).
    { unfold pre2. destruct (Z.eqb_spec (zlen (packet s e (snd p))) size) as [E|E]; [right|left; reflexivity]. split; [reflexivity|]. intros K. specialize (L2 K). lia. }
    assert (Hsk : skipn (S (length (pre ++ fst p)) + (if zlen (packet s e (snd p)) =? size then length (snd p) else S (length (snd p)))) line = pre2 ++ line_of s e ps ++ tail).
    { rewrite EL. unfold pre2, packet at 2. destruct (zlen (packet s e (snd p)) =? size).
      - replace ((pre ++ fst p) ++ (s :: snd p ++ [e]) ++ line_of s e ps ++ tail) with (((pre ++ fst p) ++ s :: snd p) ++ [e] ++ line_of s e ps ++ tail)
          by (rewrite <- !app_assoc; cbn [app]; rewrite <- !app_assoc; reflexivity).
        replace (S (length (pre ++ fst p)) + length (snd p))%nat with (length ((pre ++ fst p) ++ s :: snd p)) by (rewrite !app_length; cbn [length]; lia).
        apply skipn_app_exact.
      - rewrite app_assoc. replace (S (length (pre ++ fst p)) + S (length (snd p)))%nat with (length ((pre ++ fst p) ++ s :: snd p ++ [e])) by (rewrite !app_length; cbn [length]; rewrite app_length; cbn [length]; lia).
        apply skipn_app_exact. }
    pose proof (fun timed => ard_packet fuel ticks timed old line mem size s e t (pre ++ fst p) (snd p) (line_of s e ps ++ tail) Hsz Hm Ht Hs Hn' Hb L1 Hit Hfu EL) as AP.
    assert (HM : size <= zlen (overwritten mem (packet s e (snd p)))) by (rewrite overwritten_len; lia).
    destruct (IH cs pre2 (overwritten mem (packet s e (snd p))) tail HM (Forall_inv_tail Hc) (Forall_inv_tail Hl) (Forall_inv_tail Hf) ltac:(assumption) Hp2) as [EX UN].
    assert (HF : firstn (Z.to_nat (zlen (packet s e (snd p)))) (overwritten mem (packet s e (snd p))) = packet s e (snd p))
      by (unfold zlen; rewrite Nat2Z.id; apply firstn_overwritten).
    split.
    + set (timed := fun (i : nat) (_ : Z) => nth_error line (S (length (pre ++ fst p)) + i)).
      destruct (AP timed) as [A1 A2]. destruct (A1 ltac:(reflexivity)) as (o & Eo & O1 & O2 & O3). specialize (A2 o Eo).
      destruct EX as [l HL]. exists (packet s e (snd p) :: l). rewrite <- HF, <- O2, <- O1.
      econstructor; [exact Eo|intros i T; rewrite A2; reflexivity|]. rewrite A2, O3, O1, Hsk. exact HL.
    + intros l HL. inversion HL as [|tk ck ln mm timed o l0 Eo HTm HR]; subst. destruct (AP timed) as [A1 A2]. specialize (A2 o Eo). rewrite A2 in *.
      destruct (A1 HTm) as (o' & Eo' & O1 & O2 & O3). rewrite Eo in Eo'. apply Ok_inj in Eo'. subst o'.
      rewrite O3, O1, Hsk in HR. cbn [map]. rewrite (UN l0 HR), O1, O2, HF. reflexivity.
Qed.
