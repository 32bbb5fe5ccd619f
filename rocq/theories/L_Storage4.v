(** A region whose record chain ends in a one-byte record: exactly when calls go wrong. *)
From Coq Require FinFun.
From Verif Require Import Base M_Storage S_Storage L_Storage L_Storage2 L_Storage3.

(** ** No room for a new record: sets only overwrite *)
Lemma full_set fuel s name obj : weak s -> enough fuel (buf s) -> bytes obj -> zlen (buf s) < head s + 7 -> 1 <= zlen obj ->
  exists r s', set fuel s name obj = Ok (r, s') /\ weak s' /\ zlen (buf s') = zlen (buf s) /\ head s' = head s.
Proof.
  intros (Hb & Hs & Hh & Hc) He Hbo Hroom Hon. unfold set, set_plan. pose proof (chain_le _ _ _ Hc) as Hh0.
  destruct (getIdx_chain fuel (buf s) 0 (head s) name (zlen obj)) as (r & E & Hr); try assumption; try lia.
  { unfold enough in He. unfold zlen in Hh. lia. }
  rewrite E. cbn [bind]. destruct r as [q|].
  - destruct (Hr q eq_refl) as (C1 & H6 & Hsz & C2 & _). clear Hr.
    pose proof (chain_le _ _ _ C1). pose proof (chain_le _ _ _ C2). cbn [bind apply_stores w_off w_data]. unfold HDR.
    rewrite wr_slice_ok by lia. cbn [bind]. set (b' := blit (buf s) (q + 6) obj).
    assert (Hl : zlen b' = zlen (buf s)) by (apply zlen_blit; lia).
    assert (Hout : forall i, 0 <= i -> i < q + 6 \/ q + 6 + zlen obj <= i -> nthZ b' i = nthZ (buf s) i).
    { intros i Hi Ho'. unfold b'. rewrite nthZ_blit by lia.
      replace ((q + 6 <=? i) && (i <? q + 6 + zlen obj)) with false by lia. reflexivity. }
    assert (T1 : chain b' 0 q).
    { apply chain_transfer with (buf s); try assumption. intros x Hx Hlt. apply chain_le in Hx. apply size_at_ext; apply Hout; lia. }
    assert (Eq : size_at b' q = 6 + zlen obj) by (rewrite <- Hsz; apply size_at_ext; apply Hout; lia).
    assert (T2 : chain b' (q + 6 + zlen obj) (head s)).
    { apply chain_transfer with (buf s); try assumption. intros x Hx Hlt. apply chain_le in Hx. apply size_at_ext; apply Hout; lia. }
    assert (T3 : chain b' 0 (head s)).
    { apply chain_trans with q; [assumption|]. constructor; rewrite ?Eq, ?Hl; try lia.
      replace (q + (6 + zlen obj)) with (q + 6 + zlen obj) by lia. assumption. }
    eexists _, _. split; [reflexivity|]. cbn [buf head]. split; [|split; [assumption|reflexivity]].
    split; [|split; [|split]]; cbn [buf head]; [apply bytes_blit; assumption|lia|lia|assumption].
  - replace (zlen (buf s) <? head s + (HDR + zlen obj)) with true by (unfold HDR; lia). cbn [bind].
    eexists _, _. split; [reflexivity|]. split; [split; [assumption|auto]|split; reflexivity].
Qed.
Lemma full_exec fuel ops : forall s, weak s -> enough fuel (buf s) -> zlen (buf s) < head s + 7 ->
  Forall op_ok ops -> Forall object_op ops -> Forall not_reopen ops ->
  exists l s', exec fuel s ops = Ok (l, s').
Proof.
  induction ops as [|o ops IH]; intros s Hw He Hr Ho Hn Hg; [exists [], s; reflexivity|].
  inversion_clear Ho as [|? ? Ho1 Ho2]. inversion_clear Hg as [|? ? Hg1 Hg2]. inversion_clear Hn as [|? ? Hn1 Hn2].
  destruct o as [name obj|name n|]; try contradiction.
  - destruct Ho1 as (B1 & B2 & B3). destruct (full_set fuel s name obj Hw He B2 Hr Hn1) as (r & s1 & E & Hs1 & Hl & Hh).
    destruct (IH s1 Hs1 ltac:(eapply enough_len; eassumption) ltac:(lia) Ho2 Hn2 Hg2) as (l & s2 & El).
    exists (ABool r :: l), s2. cbn [exec step]. rewrite E. cbn [bind]. rewrite El. reflexivity.
  - destruct (weak_get fuel s name n Hw He) as (r & E); [apply Ho1|].
    destruct (IH s Hw He Hr Ho2 Hn2 Hg2) as (l & s2 & El). exists (AOpt r :: l), s2. cbn [exec step]. rewrite E. cbn [bind].
    rewrite El. reflexivity.
Qed.

(** ** Names longer than four bytes match no record *)
Lemma idx_eq_long ix name : zlen ix = 4 -> 4 < zlen name -> idx_eq ix name = false.
Proof. intros H1 H2. unfold idx_eq. replace (zlen ix <? zlen name) with true by lia. reflexivity. Qed.
Lemma long_new fuel s name n : weak s -> enough fuel (buf s) -> 4 < zlen name -> getIdx fuel (buf s) (head s) name n 0 = Ok None.
Proof.
  intros (Hb & Hs & Hh & Hc) He Hn.
  destruct (getIdx_chain fuel (buf s) 0 (head s) name n) as (r & E & Hr); try assumption; try lia.
  { unfold enough in He. unfold zlen in Hh. lia. }
  rewrite E. destruct r as [q|]; [|reflexivity]. exfalso.
  destruct (Hr q eq_refl) as (C1 & H6 & _ & _ & _ & ix & E1 & E2). pose proof (chain_le _ _ _ C1).
  unfold node_idx in E1. rewrite rd_slice_ok in E1 by lia. injection E1 as <-. rewrite idx_eq_long in E2; [discriminate| |exact Hn].
  apply zlen_slice; lia.
Qed.

(** ** Walking along the chain without a match *)
Definition hits (b name : list Z) (n q : Z) : Prop := idx_eq (slice b (q + 2) 4) name = true /\ size_at b q = 6 + n.
Lemma getIdx_walk b name n h : forall p q, chain b p q -> bytes b -> 0 <= p -> h <= zlen b -> zlen b < 4294967296 -> q + 6 <= h ->
  (forall r, chain b p r -> r < q -> ~ hits b name n r) ->
  forall fuel, q - p < Z.of_nat fuel -> exists fuel', (0 < fuel')%nat /\ getIdx fuel b h name n p = getIdx fuel' b h name n q.
Proof.
  induction 1 as [p|p q H1 H2 H3 H4 H5 IH]; intros Hb Hp Hh Hs Hq Hm fuel Hf; [exists fuel; split; [lia|reflexivity]|].
  pose proof (chain_le _ _ _ H5) as Hle. destruct fuel as [|fuel]; [lia|]. cbn [getIdx].
  replace (p + HDR <=? h) with true by (unfold HDR; lia). unfold node_idx. rewrite rd_slice_ok by lia. cbn [bind]. rewrite node_size_at by lia. cbn [bind].
  replace (idx_eq (slice b (p + 2) 4) name && (size_at b p =? HDR + n)) with false.
  2: { symmetry. apply not_true_is_false. intros E. apply andb_true_iff in E. destruct E as [E1 E2].
       apply (Hm p); [constructor|lia|]. split; [exact E1|unfold HDR in E2; lia]. }
  rewrite u32_small by (pose proof (size_at_range b p Hb); lia). apply IH; try assumption; try lia.
  intros r Hr Hlt. apply Hm; [|exact Hlt]. constructor; assumption.
Qed.

(** ** There is always a name that no record of a given size has *)
Definition triple (hi : Z) (i : nat) : list Z := let z := Z.of_nat i in [hi; z mod 256; z / 256 mod 256; z / 65536].
Lemma triple_inj hi i j : triple hi i = triple hi j -> i = j.
Proof.
  unfold triple. intros H. injection H as A B C.
  pose proof (Z.div_mod (Z.of_nat i) 256 ltac:(lia)). pose proof (Z.div_mod (Z.of_nat j) 256 ltac:(lia)).
  pose proof (Z.div_mod (Z.of_nat i / 256) 256 ltac:(lia)). pose proof (Z.div_mod (Z.of_nat j / 256) 256 ltac:(lia)).
  replace 65536 with (256 * 256) in C by lia. rewrite <- !Z.div_div in C by lia. lia.
Qed.
Lemma sized_records b S : 0 < S -> forall p q, chain b p q ->
  exists L, S * zlen L <= q - p /\ forall r, chain b p r -> r < q -> size_at b r = S -> In (slice b (r + 2) 4) L.
Proof.
  intros HS. induction 1 as [p|p q H1 H2 H3 H4 H5 IH].
  - exists []. split; [change (zlen (@nil (list Z))) with 0; lia|]. intros r Hr Hlt. apply chain_le in Hr. lia.
  - destruct IH as [L [B I]].
    exists (if size_at b p =? S then slice b (p + 2) 4 :: L else L). split.
    + destruct (Z.eqb_spec (size_at b p) S); [rewrite zlen_cons|]; lia.
    + intros r Hr Hlt Hsz. apply chain_inv in Hr. destruct Hr as [<-|(_ & _ & _ & _ & Hr)].
      * rewrite Hsz, Z.eqb_refl. left. reflexivity.
      * specialize (I r Hr Hlt Hsz). destruct (size_at b p =? S); [right|]; exact I.
Qed.
Lemma free_name (L : list (list Z)) hi : zlen L < 16777216 ->
  exists a b c, is_byte a /\ is_byte b /\ is_byte c /\ ~ In [hi; a; b; c] L.
Proof.
  intros HL. set (U := map (triple hi) (seq 0 (S (length L)))).
  destruct (existsb (fun x => negb (existsb (eqbl x) L)) U) eqn:E.
  - apply existsb_exists in E. destruct E as [x [HU Hx]]. unfold U in HU. apply in_map_iff in HU. destruct HU as [i [Ei Hi]]. apply in_seq in Hi.
    unfold triple in Ei. exists (Z.of_nat i mod 256), (Z.of_nat i / 256 mod 256), (Z.of_nat i / 65536). unfold zlen in HL. unfold is_byte.
    pose proof (Z.mod_pos_bound (Z.of_nat i) 256). pose proof (Z.mod_pos_bound (Z.of_nat i / 256) 256).
    assert (0 <= Z.of_nat i / 65536 <= 255) by (split; [apply Z.div_pos; lia|]; assert (Z.of_nat i / 65536 < 256) by (apply Z.div_lt_upper_bound; lia); lia).
    split; [lia|]. split; [lia|]. split; [lia|]. intros K. rewrite Ei in K. apply negb_true_iff in Hx.
    assert (existsb (eqbl x) L = true) by (apply existsb_exists; exists x; split; [exact K|apply eqbl_refl]). congruence.
  - exfalso. assert (NoDup U) by (apply FinFun.Injective_map_NoDup; [intros i j; apply triple_inj|apply seq_NoDup]).
    assert (incl U L).
    { intros x Hx. destruct (existsb (eqbl x) L) eqn:F.
      - apply existsb_exists in F. destruct F as [y [Hy F]]. apply eqbl_spec in F. subst y. exact Hy.
      - assert (existsb (fun x => negb (existsb (eqbl x) L)) U = true) by (apply existsb_exists; exists x; split; [exact Hx|rewrite F; reflexivity]). congruence. }
    pose proof (NoDup_incl_length H H0) as K. unfold U in K. rewrite map_length, seq_length in K. lia.
Qed.

(** ** A record appended behind a one-byte record: the state after it *)
Lemma append_state fuel b h name obj : weak (mkst b h) -> enough fuel b -> bytes name -> bytes obj -> zlen obj <= 65529 -> 4 < zlen name ->
  h + 6 + zlen obj <= zlen b ->
  exists a c, b = a ++ c /\ zlen a = h /\ exists c', let b' := a ++ enc (pad4 name, obj) ++ c' in
    set fuel (mkst b h) name obj = Ok (true, mkst b' (h + 6 + zlen obj)) /\ zlen b' = zlen b /\ bytes b'.
Proof.
  intros Hw He Hbn Hbo Ho Hn H. pose proof (long_new fuel (mkst b h) name (zlen obj) Hw He Hn) as E. destruct Hw as (Hb & Hs & Hh & Hc).
  cbn [buf head] in *. pose proof (chain_le _ _ _ Hc). pose proof (zlen_nonneg obj).
  destruct (split_at b h) as (a & t & Eb & Ha); [lia|]. exists a, t. split; [exact Eb|]. split; [exact Ha|].
  assert (Hbt : zlen b = zlen a + zlen t) by (rewrite Eb, zlen_app; reflexivity).
  destruct (apply_append a t name obj Ho) as (t1 & c & Et & Ht1 & W); [lia|]. exists c. cbv zeta.
  assert (Hle : zlen (enc (pad4 name, obj)) = 6 + zlen obj) by (apply (zlen_enc (pad4 name, obj)), pad4_len).
  split; [|split].
  - unfold set, set_plan. cbn [buf head]. rewrite E. cbn [bind]. replace (zlen b <? h + (HDR + zlen obj)) with false by (unfold HDR; lia). cbn [bind].
    rewrite <- Eb in W. rewrite <- Ha. rewrite W. cbn [bind]. rewrite u32_small by (unfold HDR; lia). unfold HDR. rewrite Z.add_assoc. reflexivity.
  - rewrite Eb, Et, !zlen_app. lia.
  - rewrite Eb in Hb. apply bytes_app in Hb. destruct Hb as [Hb1 Hb2]. rewrite Et in Hb2. apply bytes_app in Hb2.
    unfold enc. rewrite !bytes_app. cbn [fst snd].
    split; [assumption|]. split; [|apply Hb2]. split; [|split; [|assumption]].
    + unfold bytes, is_byte. pose proof (Z.mod_pos_bound (6 + zlen obj) 256).
      apply Forall_cons; [lia|]. apply Forall_cons; [|constructor].
      split; [apply Z.div_pos; lia|]. apply Z.div_lt_upper_bound; lia.
    + apply bytes_firstn. rewrite bytes_app. split; [assumption|]. exact (bytes_repeat0 4).
Qed.

Lemma unsafe_ops fuel b h : weak (mkst b h) -> enough fuel b -> ends_in_one_byte_record b h -> h + 7 <= zlen b ->
  exists name obj name' n', Forall op_ok [OSet name obj; OGet name' n'] /\ Forall object_op [OSet name obj; OGet name' n'] /\
    exists s', set fuel (mkst b h) name obj = Ok (true, s') /\ (get fuel s' name' n' = UB \/ forall fuel', get fuel' s' name' n' = Fuel).
Proof.
  intros Hw He (C1 & H0 & Hone) Hroom. pose proof Hw as (Hb & Hs & Hh & Hc). cbn [buf head] in *.
  pose proof (chain_le _ _ _ C1) as Hh1.
  assert (Ext : forall a c c', b = a ++ c -> zlen a = h -> forall i, 0 <= i < h -> nthZ (a ++ c') i = nthZ b i).
  { intros a c c' -> Ha i Hi. rewrite !nthZ_app1 by lia. reflexivity. }
  assert (Tr : forall b', zlen b' = zlen b -> (forall i, 0 <= i < h -> nthZ b' i = nthZ b i) -> chain b' 0 (h - 1)).
  { intros b' Hl Hp. apply chain_transfer with b; [exact Hl|exact C1|]. intros q Hq Hlt. apply chain_le in Hq. apply size_at_ext; apply Hp; lia. }
  assert (Tr' : forall b', zlen b' = zlen b -> (forall i, 0 <= i < h -> nthZ b' i = nthZ b i) -> forall r, chain b' 0 r -> r < h - 1 -> chain b 0 r).
  { intros b' Hl Hp r Hr Hlt. apply chain_transfer with b'; [lia|exact Hr|]. intros q Hq Hlq. apply chain_le in Hq. symmetry. apply size_at_ext; apply Hp; lia. }
  destruct (Z_lt_le_dec (zlen b) (h + 513)) as [Hsmall|Hbig].
  - destruct (sized_records b 1793 ltac:(lia) 0 (h - 1) C1) as (L & HL & HinL).
    destruct (free_name L 0 ltac:(lia)) as (x & y & z & Bx & By & Bz & Hfree).
    exists [x; y; z; 0; 1], [0], [0; x; y; z], 1787.
    assert (Bn : bytes [x; y; z; 0; 1]) by (repeat (apply Forall_cons; [try assumption; unfold is_byte; lia|]); constructor).
    assert (Bo : bytes [0]) by (apply Forall_cons; [unfold is_byte; lia|constructor]).
    assert (Bn' : bytes [0; x; y; z]) by (repeat (apply Forall_cons; [try assumption; unfold is_byte; lia|]); constructor).
    split. { apply Forall_cons; [split; [assumption|split; [assumption|unfold zlen; cbn; lia]]|apply Forall_cons; [split; [assumption|lia]|constructor]]. }
    split. { repeat constructor; cbn [object_op]; try lia. change (zlen [0]) with 1. lia. }
    destruct (append_state fuel b h [x; y; z; 0; 1] [0] Hw He Bn Bo ltac:(cbn; lia) ltac:(cbn; lia) ltac:(change (zlen [0]) with 1; lia)) as (a & c & Eb & Ha & c' & Es & Hl & Hb').
    cbv zeta in *. change (zlen [0]) with 1 in Es. set (b' := a ++ enc (pad4 [x; y; z; 0; 1], [0]) ++ c') in *.
    exists (mkst b' (h + 6 + 1)). split; [exact Es|]. left.
    assert (Hp : forall i, 0 <= i < h -> nthZ b' i = nthZ b i) by (intros i Hi; apply (Ext a c); assumption).
    assert (Hq : forall i, 0 <= i < 7 -> nthZ b' (h + i) = nthZ [7; 0; x; y; z; 0; 0] i).
    { intros i Hi. unfold b'. rewrite nthZ_app2 by lia. replace (h + i - zlen a) with i by lia. rewrite nthZ_app1; [reflexivity|]. cbn. lia. }
    assert (Esz : size_at b' (h - 1) = 1793).
    { unfold size_at in *. replace (h - 1 + 1) with (h + 0) in * by lia. rewrite Hq by lia. rewrite Hp by lia. change (nthZ [7; 0; x; y; z; 0; 0] 0) with 7.
      pose proof (bytes_nthZ b (h - 1) Hb) as B1. pose proof (bytes_nthZ b (h + 0) Hb) as B2. unfold is_byte in B1, B2. lia. }
    assert (Eix : slice b' (h - 1 + 2) 4 = [0; x; y; z]).
    { apply list_extZ; [rewrite zlen_slice by lia; reflexivity|]. intros i Hi. rewrite zlen_slice in Hi by lia. rewrite nthZ_slice by lia.
      replace (h - 1 + 2 + i) with (h + (i + 1)) by lia. rewrite Hq by lia.
      assert (Ci : i = 0 \/ i = 1 \/ i = 2 \/ i = 3) by lia. destruct Ci as [->|[->|[->| ->]]]; reflexivity. }
    unfold get. cbn [buf head].
    destruct (getIdx_walk b' [0; x; y; z] 1787 (h + 6 + 1) 0 (h - 1) (Tr b' Hl Hp) Hb' ltac:(lia) ltac:(lia) ltac:(lia) ltac:(lia)) with (fuel := fuel) as (f' & Hf' & E).
    { intros r Hr Hlt [K1 K2]. pose proof (chain_le _ _ _ Hr) as Hr0. apply idx_eq_spec in K1; [|apply zlen_slice; lia]. destruct K1 as [_ K1].
      change (pad4 [0; x; y; z]) with [0; x; y; z] in K1. apply Hfree.
      pose proof (chain_det _ _ _ Hr _ (Tr b' Hl Hp) ltac:(lia)) as D. apply chain_inv in D. destruct D as [D|(G1 & G2 & G3 & G4 & G5)]; [lia|].
      apply chain_le in G5.
      assert (Esl : slice b' (r + 2) 4 = slice b (r + 2) 4).
      { apply list_extZ; [rewrite !zlen_slice by lia; reflexivity|]. intros i Hi. rewrite zlen_slice in Hi by lia. rewrite !nthZ_slice by lia. apply Hp. lia. }
      rewrite <- K1, Esl. apply HinL; [apply (Tr' b' Hl Hp); [exact Hr|exact Hlt]|exact Hlt|].
      replace (size_at b r) with (size_at b' r) by (apply size_at_ext; apply Hp; lia). exact K2. }
    { unfold enough in He. unfold zlen in Hh. lia. }
    rewrite E. destruct f' as [|f']; [lia|]. cbn [getIdx]. replace (h - 1 + HDR <=? h + 6 + 1) with true by (unfold HDR; lia).
    unfold node_idx. rewrite rd_slice_ok by lia. cbn [bind]. rewrite node_size_at by lia. cbn [bind]. rewrite Eix, Esz.
    assert (Eqi : idx_eq [0; x; y; z] [0; x; y; z] = true) by (apply idx_eq_spec; [reflexivity|]; split; [cbn; lia|reflexivity]).
    rewrite Eqi. change (1793 =? HDR + 1787) with true. cbn [andb bind]. rewrite rd_slice_ok by lia. cbn [bind]. rewrite node_size_at by lia. cbn [bind].
    rewrite Eix, Esz, Eqi. change (1793 =? HDR + 1787) with true. cbn [andb bind].
    unfold rd_slice. replace (inb (zlen b') (h - 1 + HDR) 1787) with false; [reflexivity|].
    symmetry. unfold inb, HDR. lia.
  - set (obj := repeat 0 507). assert (Hzo : zlen obj = 507) by reflexivity.
    exists [0; 0; 0; 0; 0], obj, [0; 0; 0; 0; 0], 1.
    assert (Bn : bytes [0; 0; 0; 0; 0]) by (exact (bytes_repeat0 5)).
    assert (Bo : bytes obj) by (exact (bytes_repeat0 507)).
    split. { apply Forall_cons; [split; [assumption|split; [assumption|unfold zlen; cbn; lia]]|apply Forall_cons; [split; [assumption|lia]|constructor]]. }
    split. { repeat constructor; cbn [object_op]; lia. }
    destruct (append_state fuel b h [0; 0; 0; 0; 0] obj Hw He Bn Bo ltac:(lia) ltac:(cbn; lia) ltac:(lia)) as (a & c & Eb & Ha & c' & Es & Hl & Hb').
    cbv zeta in *. set (b' := a ++ enc (pad4 [0; 0; 0; 0; 0], obj) ++ c') in *. rewrite Hzo in Es.
    exists (mkst b' (h + 6 + 507)). split; [exact Es|]. right. intros fuel'.
    assert (Hp : forall i, 0 <= i < h -> nthZ b' i = nthZ b i) by (intros i Hi; apply (Ext a c); assumption).
    assert (Hq : forall i, 0 <= i < 513 -> nthZ b' (h + i) = nthZ (enc (pad4 [0; 0; 0; 0; 0], obj)) i).
    { intros i Hi. unfold b'. rewrite nthZ_app2 by lia. replace (h + i - zlen a) with i by lia. rewrite nthZ_app1; [reflexivity|].
      rewrite (zlen_enc (pad4 [0; 0; 0; 0; 0], obj)) by apply pad4_len. cbn [snd]. lia. }
    assert (Esz : size_at b' (h - 1) = 257).
    { unfold size_at in *. replace (h - 1 + 1) with (h + 0) in * by lia. rewrite Hq by lia. rewrite Hp by lia.
      replace (nthZ (enc (pad4 [0; 0; 0; 0; 0], obj)) 0) with 1 by reflexivity.
      pose proof (bytes_nthZ b (h - 1) Hb) as B1. pose proof (bytes_nthZ b (h + 0) Hb) as B2. unfold is_byte in B1, B2. lia. }
    assert (Esz2 : size_at b' (h + 256) = 0).
    { unfold size_at. replace (h + 256 + 1) with (h + 257) by lia. rewrite !Hq by lia. reflexivity. }
    assert (Cb : chain b' 0 (h + 256)).
    { apply chain_trans with (h - 1); [apply (Tr b' Hl Hp)|]. constructor; rewrite ?Esz; try lia. replace (h - 1 + 257) with (h + 256) by lia. constructor. }
    unfold get. cbn [buf head]. pose proof (zlen_nonneg b') as Hz.
    assert (Fu : forall f, getIdx f b' (h + 6 + 507) [0; 0; 0; 0; 0] 1 0 = Fuel).
    { intros f.
      assert (Mono : forall f1 p q, chain b' p q -> 0 <= p -> q + 6 <= h + 6 + 507 -> size_at b' q = 0 -> getIdx f1 b' (h + 6 + 507) [0; 0; 0; 0; 0] 1 p = Fuel).
        { induction f1 as [|f1 IH]; intros p q Hpq Hp0 Hq0 Hz0; [reflexivity|]. pose proof (chain_le _ _ _ Hpq). cbn [getIdx].
          replace (p + HDR <=? h + 6 + 507) with true by (unfold HDR; lia). unfold node_idx. rewrite rd_slice_ok by lia. cbn [bind]. rewrite node_size_at by lia. cbn [bind].
          rewrite idx_eq_long; [|apply zlen_slice; lia|cbn; lia]. cbn [andb]. rewrite u32_small by (pose proof (size_at_range b' p Hb'); pose proof (chain_inv _ _ _ Hpq) as [->|(_ & _ & _ & G & _)]; lia).
          destruct (chain_inv _ _ _ Hpq) as [->|(_ & _ & G3 & _ & G)]; [rewrite Hz0, Z.add_0_r; apply (IH q q); try assumption; constructor|].
          apply (IH _ q); try assumption; lia. }
        apply (Mono f 0 (h + 256)); try assumption; lia. }
    rewrite Fu. reflexivity.
Qed.

Lemma open_exact fuel b h : bytes b -> zlen b < 4294967296 -> (length b < fuel)%nat -> ctor_open fuel b = Ok (mkst b h) ->
  ((forall ops, Forall op_ok ops -> Forall object_op ops -> Forall not_reopen ops -> exists l s', exec fuel (mkst b h) ops = Ok (l, s')) <->
   ~ (ends_in_one_byte_record b h /\ h + 7 <= zlen b)).
Proof.
  intros Hb Hs Hf E. destruct (open_any fuel b Hb Hs Hf) as (h' & E' & Hh & Hc). rewrite E in E'. injection E' as <-.
  assert (Hw : weak (mkst b h)) by (split; [|split; [|split]]; cbn [buf head]; auto; lia).
  assert (He : enough fuel b) by exact Hf. split.
  - intros Hall (Hend & Hroom). destruct (unsafe_ops fuel b h Hw He Hend Hroom) as (name & obj & name' & n' & H1 & H2 & s' & Es & Hg).
    destruct (Hall _ H1 H2 ltac:(repeat constructor)) as (l & s2 & Ex). cbn [exec step] in Ex. rewrite Es in Ex. cbn [bind] in Ex.
    destruct Hg as [Hg|Hg]; rewrite Hg in Ex; discriminate.
  - intros Hn ops Ho Hob Hg. destruct (Z_lt_le_dec (zlen b) (h + 7)) as [Hroom|Hroom].
    + apply full_exec; assumption.
    + apply safe_exec; try assumption. split; [exact Hw|]. intros K. apply Hn. split; assumption.
Qed.
