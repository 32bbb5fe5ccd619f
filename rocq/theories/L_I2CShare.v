(** Lemmas about devices sharing an I2C bus. *)
From Verif Require Import Base M_I2C P_Misc M_I2CShare S_I2CShare.

Lemma received_onLine n l : onLine n l = received n l.
Proof.
  unfold onLine, received. set (k := Z.to_nat n). change (map u8 l) with (map (fun b => b mod 256) l). generalize (map (fun b => b mod 256) l). clear. intros l.
  assert (L : length (firstn k (l ++ repeat 255 k)) = k) by (rewrite firstn_length, app_length, repeat_length; lia).
  apply nth_ext with (d := 255) (d' := nth k l 255); [rewrite L, map_length, seq_length; reflexivity|].
  intros i Hi. rewrite L in Hi. rewrite (map_nth (fun i => nth i l 255)), seq_nth by exact Hi. cbn [Nat.add].
  rewrite nth_firstn_lt by exact Hi. destruct (le_lt_dec (length l) i) as [G|G].
  - rewrite app_nth2 by exact G. rewrite nth_repeat. symmetry. apply nth_overflow. exact G.
  - rewrite app_nth1 by exact G. reflexivity.
Qed.
Lemma zlen_received n l : 0 <= n -> zlen (received n l) = n.
Proof. intros H. unfold received, zlen. rewrite map_length, seq_length. lia. Qed.
Lemma received_byte n l i : 0 <= i < n -> nthZ (received n l) i mod 256 = nthZ (received n l) i.
Proof.
  intros H. unfold nthZ, received. rewrite (nth_indep _ 0 (nth (Z.to_nat n) (map (fun b => b mod 256) l) 255)) by (rewrite map_length, seq_length; lia).
  rewrite (map_nth (fun i => nth i (map (fun b => b mod 256) l) 255)), seq_nth by lia. cbn [Nat.add]. destruct (le_lt_dec (length l) (Z.to_nat i)) as [G|G].
  - rewrite nth_overflow by (rewrite map_length; exact G). reflexivity.
  - rewrite (nth_indep _ 255 (0 mod 256)) by (rewrite map_length; exact G). rewrite (map_nth (fun b => b mod 256)). apply Z.mod_mod. lia.
Qed.

Lemma seen_app a t1 t2 : seen a (t1 ++ t2) = seen a t1 ++ seen a t2.
Proof. unfold seen. rewrite filter_app, map_app. reflexivity. Qed.
Lemma seen_same a m : seen a [(a, m)] = [m].
Proof. unfold seen. cbn [filter fst]. rewrite Z.eqb_refl. reflexivity. Qed.
Lemma seen_other a b m : a <> b -> seen a [(b, m)] = [].
Proof. intros H. unfold seen. cbn [filter fst]. destruct (Z.eqb_spec b a); [congruence|reflexivity]. Qed.

(** reading the queue of TwoWire *)
Lemma twi_reads devs cap t log k :
  traffic (twiRun devs cap t (log ++ repeat ReadByte k)) = traffic (twiRun devs cap t log) /\
  rxQueue (twiRun devs cap t (log ++ repeat ReadByte k)) = skipn k (rxQueue (twiRun devs cap t log)).
Proof.
  induction k as [|k [IH1 IH2]]; [rewrite app_nil_r; split; reflexivity|].
  replace (repeat ReadByte (S k)) with (repeat ReadByte k ++ [ReadByte]) by (symmetry; apply repeat_cons).
  rewrite app_assoc. unfold twiRun in *. rewrite fold_left_app. cbn [fold_left twiStep traffic rxQueue]. split; [exact IH1|]. rewrite IH2.
  generalize (rxQueue (fold_left (twiStep devs cap) log {| target := 0; txQueue := []; rxQueue := []; traffic := t; lastAnswer := 0 |})).
  clear. induction k as [|k IH]; intros [|x l]; try reflexivity. cbn [skipn] in *. apply IH.
Qed.
Lemma twi_read_value devs cap t log i :
  lastAnswer (twiRun devs cap t (log ++ repeat ReadByte (S i))) = nth i (rxQueue (twiRun devs cap t log)) (-1).
Proof.
  replace (repeat ReadByte (S i)) with (repeat ReadByte i ++ [ReadByte]) by (symmetry; apply repeat_cons).
  destruct (twi_reads devs cap t log i) as [_ E]. rewrite app_assoc. unfold twiRun in *. rewrite fold_left_app. cbn [fold_left twiStep lastAnswer]. rewrite E.
  generalize (rxQueue (fold_left (twiStep devs cap) log {| target := 0; txQueue := []; rxQueue := []; traffic := t; lastAnswer := 0 |})).
  clear. induction i as [|i IH]; intros [|x l]; try reflexivity. cbn [skipn nth]. apply IH.
Qed.

Lemma slice_front {A} (d rest : list A) : slice (d ++ rest) 0 (zlen d) = d.
Proof. exact (slice_mid [] d rest). Qed.
Lemma slice_back {A} (d rest : list A) n : zlen rest = n -> slice (d ++ rest) (zlen d) n = rest.
Proof. intros <-. rewrite <- (app_nil_r rest) at 1. apply slice_mid. Qed.

Lemma ard_put devs cap t a d rest : 0 <= cap ->
  let a' := busAddress a in let p := put_alone cap (devs a') (seen a' t) d in
  exists log, ardSendSync (twiWire devs cap t) a (d ++ rest) 0 (zlen d) [] = Ok (fst p, log) /\
    traffic (twiRun devs cap t log) = t ++ [(a', Put (firstn (Z.to_nat cap) d))].
Proof.
  intros Hc a' p. unfold ardSendSync. rewrite rd_slice_ok by (rewrite ?zlen_app; pose proof (zlen_nonneg d); pose proof (zlen_nonneg rest); lia). cbn [bind]. rewrite slice_front.
  eexists. split; [f_equal|].
  - cbn [app]. f_equal. unfold twiWire. cbn [queued endCode]. unfold twiRun. cbn [fold_left twiStep lastAnswer target txQueue traffic app].
    fold a'. change (zlen (@nil Z)) with 0. rewrite Z.sub_0_r. unfold p, put_alone. cbn [fst].
    destruct (devs a' (seen a' t) (Put (firstn (Z.to_nat cap) d))); [|reflexivity]. change (0 =? 0) with true. cbn [andb].
    unfold zlen. rewrite firstn_length. destruct (Z.leb_spec (Z.of_nat (length d)) cap); [apply Z.eqb_eq|apply Z.eqb_neq]; lia.
  - cbn [app]. unfold twiRun. cbn [fold_left twiStep traffic target txQueue app]. change (zlen (@nil Z)) with 0. rewrite Z.sub_0_r. reflexivity.
Qed.
Lemma ard_ask devs cap t a pre n log : 0 <= cap -> 0 <= n ->
  let a' := busAddress a in let q := ask_alone true cap (devs a') (seen a' (traffic (twiRun devs cap t log))) n in
  exists log', ardReceiveSync (twiWire devs cap t) a (pre ++ blank n) (zlen pre) n log = Ok (fst (fst q), pre ++ snd (fst q), log') /\
    traffic (twiRun devs cap t log') = traffic (twiRun devs cap t log) ++ [(a', Ask (Z.min n cap))].
Proof.
  intros Hc Hn a' q. pose proof (zlen_nonneg pre) as Hp. assert (Hb : zlen (blank n) = n) by (unfold blank, zlen; rewrite repeat_length; lia).
  set (asked := log ++ [RequestFrom a n]). set (st := twiRun devs cap t log) in *.
  assert (R : twiRun devs cap t asked = twiStep devs cap st (RequestFrom a n)) by (unfold asked, twiRun; rewrite fold_left_app; reflexivity).
  assert (T : traffic (twiRun devs cap t asked) = traffic st ++ [(a', Ask (Z.min n cap))]) by (rewrite R; reflexivity).
  assert (X : rxQueue (twiRun devs cap t asked) = match devs a' (seen a' (traffic st)) (Ask (Z.min n cap)) with Some l => onLine (Z.min n cap) l | None => [] end) by (rewrite R; reflexivity).
  assert (N : requested (twiWire devs cap t) asked = zlen (rxQueue (twiRun devs cap t asked))) by (unfold twiWire; cbn [requested]; rewrite R; reflexivity).
  destruct (C54_receive (twiWire devs cap t) a (pre ++ blank n) (zlen pre) n log) as [(E & got & L & G & O)|(E & O)]; try (rewrite ?zlen_app; lia); fold asked in E, O; rewrite N, X in E.
  - fold asked in G. eexists. split; [|destruct (twi_reads devs cap t asked (Z.to_nat n)) as [T' _]; rewrite T'; exact T]. rewrite O. unfold q, ask_alone.
    destruct (devs a' (seen a' (traffic st)) (Ask (Z.min n cap))) as [l|] eqn:D; [|change (zlen (@nil Z)) with 0 in E; subst n; destruct got; [|cbn in L; lia]; rewrite blit_nil; reflexivity].
    rewrite received_onLine, zlen_received in E by lia. destruct (Z.leb_spec n cap) as [Hle|Hle]; [|lia]. cbn [fst snd]. do 2 f_equal. f_equal.
    assert (got = received n l).
    { pose proof (zlen_received n l ltac:(lia)) as Lr. apply nth_ext with (d := 0) (d' := 0); [unfold zlen in *; lia|]. intros k Hk.
      assert (Hi : 0 <= Z.of_nat k < n) by (unfold zlen in *; lia). rewrite <- (Nat2Z.id k). set (i := Z.of_nat k) in *. change (nthZ got i = nthZ (received n l) i). rewrite G by exact Hi. unfold twiWire. cbn [readValue]. rewrite twi_read_value, X.
      rewrite received_onLine. rewrite Z.min_l by exact Hle. rewrite (nth_indep _ (-1) 0) by (unfold zlen in *; lia).
      apply (received_byte n l). exact Hi. }
    subst got. pose proof (blit_mid pre (blank n) (received n l) []) as B. rewrite !app_nil_r in B. apply B. rewrite Hb. apply zlen_received. lia.
  - eexists. split; [|exact T]. rewrite O. unfold q, ask_alone.
    destruct (devs a' (seen a' (traffic st)) (Ask (Z.min n cap))) as [l|].
    + rewrite received_onLine, zlen_received in E by lia. destruct (Z.leb_spec n cap) as [Hle|Hle]; [lia|reflexivity].
    + change (zlen (@nil Z)) with 0 in E. destruct (Z.eqb_spec n 0); [lia|reflexivity].
Qed.

(** what a call has to do *)
Definition does lax cap (devs : Z -> i2cDevice) call (a : Z) (r : request) : Prop := forall t,
  let a' := busAddress a in let c := call_alone lax cap (devs a') (seen a' t) r in
  exists t', call a r t = Ok (fst c, t') /\ seen a' t' = snd c /\ forall b, b <> a' -> seen b t' = seen b t.

Lemma ard_does devs cap a r : 0 <= cap -> request_ok r -> does true cap devs (ardCall devs cap) a r.
Proof.
  intros Hc Hr t a' c. unfold ardCall. destruct r as [d|n|d n]; cbn [request_ok] in Hr.
  - destruct (ard_put devs cap t a d [] Hc) as (log & E & T). fold a' in E, T. rewrite app_nil_r in E. rewrite E. cbn [bind].
    eexists. split; [unfold c, call_alone; destruct (put_alone _ _ _ _); reflexivity|]. rewrite T. split.
    + rewrite seen_app, seen_same. reflexivity.
    + intros b Hb. rewrite seen_app, seen_other, app_nil_r by exact Hb. reflexivity.
  - destruct (ard_ask devs cap t a [] n [] Hc ltac:(lia)) as (log & E & T). fold a' in E, T. change (zlen (@nil Z)) with 0 in E. cbn [app] in E. rewrite E. cbn [bind].
    eexists. split; [unfold c, call_alone; change (traffic (twiRun devs cap t [])) with t; destruct (ask_alone _ _ _ _) as [[? ?] ?]; reflexivity|]. rewrite T. change (traffic (twiRun devs cap t [])) with t. split.
    + rewrite seen_app, seen_same. reflexivity.
    + intros b Hb. rewrite seen_app, seen_other, app_nil_r by exact Hb. reflexivity.
  - destruct (ard_put devs cap t a d (blank n) Hc) as (log & E & T). fold a' in E, T. unfold ardSendThenReceive. rewrite E. cbn [bind].
    unfold c, call_alone. pose proof (eq_refl : snd (put_alone cap (devs a') (seen a' t) d) = seen a' t ++ [Put (firstn (Z.to_nat cap) d)]) as P2.
    destruct (put_alone cap (devs a') (seen a' t) d) as [ok h]. cbn [fst snd] in *. subst h.
    assert (S1 : seen a' (traffic (twiRun devs cap t log)) = seen a' t ++ [Put (firstn (Z.to_nat cap) d)]) by (rewrite T, seen_app, seen_same; reflexivity).
    assert (S2 : forall b, b <> a' -> seen b (traffic (twiRun devs cap t log)) = seen b t) by (intros b Hb; rewrite T, seen_app, seen_other, app_nil_r by exact Hb; reflexivity).
    assert (Hz : zlen (blank n) = n) by (unfold blank, zlen; rewrite repeat_length; lia).
    destruct ok.
    + destruct (ard_ask devs cap t a d n log Hc ltac:(lia)) as (log' & E' & T'). fold a' in E', T'. rewrite E'. cbn [bind]. rewrite S1. 
      set (q := ask_alone true cap (devs a') (seen a' t ++ [Put (firstn (Z.to_nat cap) d)]) n). eexists. split; [|split].
      * rewrite slice_back; [destruct q as [[? ?] ?]; reflexivity|]. unfold q, ask_alone.
        destruct (devs a' _ _); [destruct (n <=? cap)|]; cbn [fst snd]; [apply zlen_received; lia|exact Hz|exact Hz].
      * rewrite T', seen_app, seen_same, S1. reflexivity.
      * intros b Hb. rewrite T', seen_app, seen_other, app_nil_r by exact Hb. apply S2. exact Hb.
    + cbn [bind]. eexists. split; [rewrite slice_back by exact Hz; reflexivity|]. split; [exact S1|exact S2].
Qed.

Lemma busAddress_u8 a : busAddress (u8 a) = busAddress a.
Proof. unfold busAddress, u8. symmetry. apply Znumtheory.Zmod_div_mod; try lia. exists 2. reflexivity. Qed.
Lemma esp_put devs t tick timeout a d rest :
  let a' := busAddress a in let p := put_alone 65535 (devs a') (seen a' t) d in zlen d <= 65535 ->
  exists log, espSendSync (espMaster devs t) tick a timeout (d ++ rest) 0 (zlen d) [] = Ok (fst p, log) /\
    espTraffic (espRun devs t log) = t ++ [(a', Put d)] /\ snd p = seen a' t ++ [Put d].
Proof.
  intros a' p Hd. unfold espSendSync. rewrite rd_slice_ok by (rewrite ?zlen_app; pose proof (zlen_nonneg d); pose proof (zlen_nonneg rest); lia). cbn [bind]. rewrite slice_front.
  assert (A : busAddress (u8 a) = a') by apply busAddress_u8.
  assert (F : firstn (Z.to_nat 65535) d = d) by (apply firstn_all2; unfold zlen in Hd; lia).
  eexists. split; [f_equal|split].
  - cbn [app]. f_equal. unfold espMaster. cbn [writeCode]. unfold espRun. cbn [fold_left espStep espCode espTraffic]. rewrite A. unfold p, put_alone. cbn [fst]. rewrite F.
    destruct (devs a' (seen a' t) (Put d)); [|reflexivity]. symmetry. apply Z.leb_le. exact Hd.
  - cbn [app]. unfold espRun. cbn [fold_left espStep espTraffic]. rewrite A. reflexivity.
  - unfold p, put_alone. cbn [snd]. rewrite F. reflexivity.
Qed.
Lemma esp_ask devs t tick timeout a pre n log :
  let a' := busAddress a in let q := ask_alone false 65535 (devs a') (seen a' (espTraffic (espRun devs t log))) n in 0 <= n <= 65535 ->
  exists log', espReceiveSync (espMaster devs t) tick a timeout (pre ++ blank n) (zlen pre) n log = Ok (fst (fst q), pre ++ snd (fst q), log') /\
    espTraffic (espRun devs t log') = espTraffic (espRun devs t log) ++ [(a', Ask n)].
Proof.
  intros a' q Hn. pose proof (zlen_nonneg pre) as Hp. assert (Hb : zlen (blank n) = n) by (unfold blank, zlen; rewrite repeat_length; lia).
  assert (A : busAddress (u8 a) = a') by apply busAddress_u8.
  unfold espReceiveSync. set (asked := log ++ _). set (st := espRun devs t log) in *.
  assert (R : espRun devs t asked = espStep devs st (ReadFrom (u8 a) n (timeout / tick))) by (unfold asked, espRun; rewrite fold_left_app; reflexivity).
  unfold espMaster. cbn [readAnswer]. rewrite R. cbn [espStep]. rewrite A. unfold q, ask_alone. rewrite Z.min_l by lia.
  destruct (devs a' (seen a' (espTraffic st)) (Ask n)) as [l|] eqn:D; cbn [espCode espBytes fst snd].
  - rewrite received_onLine. rewrite wr_slice_ok by (rewrite ?zlen_app, ?zlen_received; lia). cbn [bind]. destruct (Z.leb_spec n 65535) as [_|]; [|lia]. cbn [fst snd].
    eexists. split; [|rewrite R; cbn [espStep]; rewrite A, D; reflexivity].
    pose proof (blit_mid pre (blank n) (received n l) []) as B. rewrite !app_nil_r in B. rewrite B by (rewrite Hb; apply zlen_received; lia). reflexivity.
  - rewrite wr_slice_ok by (rewrite ?zlen_app; change (zlen (@nil Z)) with 0; lia). cbn [bind]. rewrite blit_nil.
    eexists. split; [reflexivity|]. rewrite R. cbn [espStep]. rewrite A, D. reflexivity.
Qed.
Lemma esp_does devs tick timeout a r : request_ok r -> does false 65535 devs (espCall devs tick timeout) a r.
Proof.
  intros Hr t a' c. unfold espCall. destruct r as [d|n|d n]; cbn [request_ok] in Hr.
  - destruct (esp_put devs t tick timeout a d [] Hr) as (log & E & T & P). fold a' in E, T, P. rewrite app_nil_r in E. rewrite E. cbn [bind].
    eexists. unfold c, call_alone. destruct (put_alone _ _ _ _) as [ok h]. cbn [fst snd] in *. split; [reflexivity|]. rewrite T. split.
    + rewrite seen_app, seen_same. symmetry. exact P.
    + intros b Hb. rewrite seen_app, seen_other, app_nil_r by exact Hb. reflexivity.
  - destruct (esp_ask devs t tick timeout a [] n [] Hr) as (log & E & T). fold a' in E, T. change (zlen (@nil Z)) with 0 in E. cbn [app] in E. rewrite E. cbn [bind].
    change (espTraffic (espRun devs t [])) with t in *. eexists. split; [unfold c, call_alone; destruct (ask_alone _ _ _ _) as [[? ?] ?]; reflexivity|]. rewrite T. split.
    + rewrite seen_app, seen_same. unfold c, call_alone, ask_alone. rewrite Z.min_l by lia. reflexivity.
    + intros b Hb. rewrite seen_app, seen_other, app_nil_r by exact Hb. reflexivity.
  - destruct Hr as [Hd Hn]. destruct (esp_put devs t tick timeout a d (blank n) Hd) as (log & E & T & P). fold a' in E, T, P. unfold espSendThenReceive. rewrite E. cbn [bind].
    unfold c, call_alone. destruct (put_alone 65535 (devs a') (seen a' t) d) as [ok h]. cbn [fst snd] in *. subst h.
    assert (S1 : seen a' (espTraffic (espRun devs t log)) = seen a' t ++ [Put d]) by (rewrite T, seen_app, seen_same; reflexivity).
    assert (S2 : forall b, b <> a' -> seen b (espTraffic (espRun devs t log)) = seen b t) by (intros b Hb; rewrite T, seen_app, seen_other, app_nil_r by exact Hb; reflexivity).
    assert (Hz : zlen (blank n) = n) by (unfold blank, zlen; rewrite repeat_length; lia).
    destruct ok.
    + destruct (esp_ask devs t tick timeout a d n log Hn) as (log' & E' & T'). fold a' in E', T'. rewrite E'. cbn [bind]. rewrite S1.
      set (q := ask_alone false 65535 (devs a') (seen a' t ++ [Put d]) n). eexists. split; [|split].
      * rewrite slice_back; [destruct q as [[? ?] ?]; reflexivity|]. unfold q, ask_alone.
        destruct (devs a' _ _); [destruct (n <=? 65535)|]; cbn [fst snd]; [apply zlen_received; lia|exact Hz|exact Hz].
      * rewrite T', seen_app, seen_same, S1. unfold q, ask_alone. rewrite Z.min_l by lia. reflexivity.
      * intros b Hb. rewrite T', seen_app, seen_other, app_nil_r by exact Hb. apply S2. exact Hb.
    + cbn [bind]. eexists. split; [rewrite slice_back by exact Hz; reflexivity|]. split; [exact S1|exact S2].
Qed.

Lemma all_alone lax cap devs call rs : Forall (fun x => does lax cap devs call (fst x) (snd x)) rs -> forall t,
  exists ls t', callAll call rs t = Ok (ls, t') /\ length ls = length rs /\
    forall a, alone lax cap (devs a) (seen a t) (at_address a rs) = (at_address a (combine (map fst rs) ls), seen a t').
Proof.
  induction 1 as [|[a r] rs H Hs IH]; intros t; [exists [], t; repeat split|]. cbn [fst snd] in H.
  destruct (H t) as (t1 & E & S1 & S2). destruct (IH t1) as (ls & t' & E' & L & A). cbn [callAll]. rewrite E.
  destruct (call_alone lax cap (devs (busAddress a)) (seen (busAddress a) t) r) as [[ok mem] h] eqn:C. cbn [fst snd bind] in *. rewrite E'. cbn [bind].
  exists ((ok, mem) :: ls), t'. split; [reflexivity|]. split; [cbn [length]; rewrite L; reflexivity|]. intros b. unfold at_address. cbn [map combine filter fst].
  destruct (Z.eqb_spec (a mod 128) b) as [<-|N].
  - cbn [map snd alone]. change (a mod 128) with (busAddress a) at 1 2. rewrite C, <- S1. fold (at_address (a mod 128) rs). change (busAddress a) with (a mod 128). rewrite A. reflexivity.
  - rewrite <- (S2 b) by (intros ->; apply N; reflexivity). apply A.
Qed.
