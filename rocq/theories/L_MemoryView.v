From Verif Require Import Base M_MemoryView S_MemoryView.

Lemma skipn_seq_ k a n : skipn k (seq a n) = seq (a + k) (n - k).
Proof.
  revert a n. induction k as [|k IH]; intros a n.
  - rewrite Nat.add_0_r, Nat.sub_0_r. reflexivity.
  - destruct n; [reflexivity|]. cbn. rewrite IH. f_equal. lia.
Qed.
Lemma firstn_seq_ k a n : firstn k (seq a n) = seq a (Nat.min k n).
Proof.
  revert a n. induction k as [|k IH]; intros a n; [reflexivity|].
  destruct n; [reflexivity|]. cbn. rewrite IH. reflexivity.
Qed.
Lemma map_seq_shift {A} (f : nat -> A) a n : map f (seq a n) = map (fun i => f (a + i)%nat) (seq 0 n).
Proof.
  revert a f. induction n as [|n IH]; intros a f; [reflexivity|].
  cbn [seq map]. rewrite Nat.add_0_r. f_equal. rewrite (IH (S a)). rewrite (IH 1%nat).
  apply map_ext. intros i. f_equal. lia.
Qed.

Lemma elems_length W esz m v : view_ok W esz m v -> zlen (view_elems esz m v) = vsize v.
Proof.
  intros [Hs Hp]. unfold view_elems. destruct (vptr v).
  - unfold zlen. rewrite map_length, seq_length. lia.
  - rewrite Hp. reflexivity.
Qed.

Lemma elems_sub esz (m : list Z) a n off cnt :
  0 <= off <= n -> 0 <= cnt ->
  map (fun i => slice m (a + off * esz + Z.of_nat i * esz) esz) (seq 0 (Z.to_nat (Z.min (n - off) cnt)))
  = takeZ cnt (dropZ off (map (fun i => slice m (a + Z.of_nat i * esz) esz) (seq 0 (Z.to_nat n)))).
Proof.
  intros Ho Hc. unfold takeZ, dropZ. rewrite skipn_map, firstn_map.
  rewrite skipn_seq_, firstn_seq_. rewrite (map_seq_shift _ (0 + Z.to_nat off)%nat).
  replace (Nat.min (Z.to_nat cnt) (Z.to_nat n - Z.to_nat off)) with (Z.to_nat (Z.min (n - off) cnt)) by lia.
  apply map_ext. intros i. f_equal.
  rewrite Nat2Z.inj_add, Nat2Z.inj_add, Z2Nat.id by lia. ring.
Qed.

Lemma take_all_Z {A} n (l : list A) : zlen l <= n -> takeZ n l = l.
Proof. unfold takeZ, zlen. intros. apply firstn_all2. lia. Qed.
Lemma drop_all_Z {A} n (l : list A) : zlen l <= n -> dropZ n l = [].
Proof. unfold dropZ, zlen. intros. apply skipn_all2. lia. Qed.

Lemma subspan_exact W esz m v off cnt :
  0 < esz -> view_ok W esz m v -> 0 <= off < SIZE_LIMIT W -> 0 <= cnt < SIZE_LIMIT W ->
  exists v', v_subspan W esz v off cnt = Ok v' /\ view_ok W esz m v' /\
             view_elems esz m v' = takeZ cnt (dropZ off (view_elems esz m v)) /\
             range_inside esz v' v.
Proof.
  intros He Hv Ho Hc. pose proof (elems_length _ _ _ _ Hv) as Hlen. destruct Hv as [Hs Hp].
  unfold v_subspan. destruct (Z.leb_spec (vsize v) off) as [H|H].
  - exists view_empty. split; [reflexivity|]. split.
    { split; cbn [vsize vptr view_empty]; [lia|reflexivity]. }
    split; [|left; reflexivity].
    rewrite drop_all_Z by lia. unfold takeZ. rewrite firstn_nil. reflexivity.
  - destruct (vptr v) as [a|] eqn:Hpv; [|lia]. cbn [padd bind].
    assert (Hel : forall c, 0 <= c ->
      view_elems esz m (mkview (Some (a + off * esz)) (Z.min (vsize v - off) c))
      = takeZ c (dropZ off (view_elems esz m v))).
    { intros c Hc'. unfold view_elems. cbn [vptr vsize]. rewrite Hpv. apply elems_sub; lia. }
    destruct (Z.eqb_spec cnt (NPOS W)) as [Hn|Hn].
    + exists (mkview (Some (a + off * esz)) (vsize v - off)). split; [reflexivity|].
      unfold NPOS in Hn. change (SIZE_MOD W) with (SIZE_LIMIT W) in Hn. split.
      { split; cbn [vsize vptr]; [lia|]. nia. }
      split.
      * rewrite <- (Hel cnt) by lia. f_equal. f_equal. lia.
      * right. exists a, (a + off * esz). cbn [vptr vsize]. repeat split; auto; nia.
    + exists (mkview (Some (a + off * esz)) (Z.min (vsize v - off) cnt)). split; [reflexivity|]. split.
      { split; cbn [vsize vptr]; [lia|]. nia. }
      split; [apply Hel; lia|].
      right. exists a, (a + off * esz). cbn [vptr vsize]. repeat split; auto; nia.
Qed.

Lemma first_exact W esz m v cnt :
  0 < esz -> view_ok W esz m v -> 0 <= cnt < SIZE_LIMIT W ->
  view_ok W esz m (v_first v cnt) /\
  view_elems esz m (v_first v cnt) = takeZ cnt (view_elems esz m v) /\
  range_inside esz (v_first v cnt) v.
Proof.
  intros He Hv Hc. pose proof (elems_length _ _ _ _ Hv) as Hlen.
  unfold v_first. destruct (Z.leb_spec (vsize v) cnt) as [H|H].
  - split; [assumption|]. split; [symmetry; apply take_all_Z; lia|].
    destruct Hv as [Hs Hp]. unfold range_inside. destruct (vptr v) as [a|] eqn:E; [|left; auto].
    right. exists a, a. repeat split; auto; lia.
  - destruct Hv as [Hs Hp]. destruct (vptr v) as [a|] eqn:E; [|lia]. split.
    { split; cbn [vsize vptr]; [lia|]. nia. }
    split.
    + unfold view_elems. cbn [vptr vsize]. rewrite E.
      pose proof (elems_sub esz m a (vsize v) 0 cnt) as Hes.
      unfold dropZ in Hes. cbn [skipn Z.to_nat] in Hes. rewrite <- Hes by lia.
      replace (Z.min (vsize v - 0) cnt) with cnt by lia.
      apply map_ext. intros i. f_equal. lia.
    + right. exists a, a. cbn [vptr vsize]. repeat split; auto; nia.
Qed.

Lemma last_exact W esz m v cnt :
  0 < esz -> view_ok W esz m v -> 0 <= cnt < SIZE_LIMIT W ->
  exists v', v_last esz v cnt = Ok v' /\ view_ok W esz m v' /\
             view_elems esz m v' = dropZ (Z.max 0 (vsize v - cnt)) (view_elems esz m v) /\
             range_inside esz v' v.
Proof.
  intros He Hv Hc. pose proof (elems_length _ _ _ _ Hv) as Hlen.
  unfold v_last. destruct (Z.leb_spec (vsize v) cnt) as [H|H].
  - exists v. split; [reflexivity|]. split; [assumption|]. split.
    + replace (Z.max 0 (vsize v - cnt)) with 0 by lia. reflexivity.
    + destruct Hv as [Hs Hp]. unfold range_inside. destruct (vptr v) as [a|] eqn:E; [|left; auto].
      right. exists a, a. repeat split; auto; lia.
  - destruct Hv as [Hs Hp]. destruct (vptr v) as [a|] eqn:E; [|lia]. cbn [padd bind].
    eexists. split; [reflexivity|]. split.
    { split; cbn [vsize vptr]; [lia|]. nia. }
    split.
    + replace (Z.max 0 (vsize v - cnt)) with (vsize v - cnt) by lia.
      unfold view_elems. cbn [vptr vsize]. rewrite E.
      pose proof (elems_sub esz m a (vsize v) (vsize v - cnt) cnt) as Hes.
      replace (Z.min (vsize v - (vsize v - cnt)) cnt) with cnt in Hes by lia.
      rewrite Hes by lia. apply take_all_Z.
      unfold dropZ, zlen. rewrite skipn_length, map_length, seq_length. lia.
    + right. exists a, (a + (vsize v - cnt) * esz). cbn [vptr vsize]. repeat split; auto; nia.
Qed.

Lemma at_exact W esz m v i :
  0 < esz -> view_ok W esz m v -> 0 <= i < vsize v ->
  v_at esz m v i = Ok (nth (Z.to_nat i) (view_elems esz m v) []).
Proof.
  intros He [Hs Hp] Hi. unfold v_at, view_elems. destruct (vptr v) as [a|]; [|lia].
  rewrite rd_slice_ok by nia. f_equal.
  rewrite nth_indep with (d' := slice m (a + Z.of_nat 0 * esz) esz) by (rewrite map_length, seq_length; lia).
  rewrite (map_nth (fun i => slice m (a + Z.of_nat i * esz) esz)).
  rewrite seq_nth by lia. f_equal. lia.
Qed.

Lemma collect_exact esz (m : list Z) a n :
  0 < esz -> 0 <= a -> a + Z.of_nat n * esz <= zlen m ->
  v_collect esz m (Some a) n = Ok (map (fun i => slice m (a + Z.of_nat i * esz) esz) (seq 0 n)).
Proof.
  intros He. revert a. induction n as [|n IH]; intros a Ha Hn; [reflexivity|].
  cbn [v_collect]. rewrite rd_slice_ok by nia. cbn [bind padd].
  rewrite IH by nia. cbn [bind seq map]. f_equal. f_equal.
  - f_equal. lia.
  - rewrite (map_seq_shift _ 1%nat). apply map_ext. intros i. f_equal. lia.
Qed.
Lemma iterate_exact W esz m v :
  0 < esz -> view_ok W esz m v -> v_iterate esz m v = Ok (view_elems esz m v).
Proof.
  intros He [Hs Hp]. unfold v_iterate, v_begin, view_elems. destruct (vptr v) as [a|].
  - apply collect_exact; try lia.
  - rewrite Hp. reflexivity.
Qed.
Lemma rcollect_exact esz (m : list Z) a n :
  0 < esz -> 0 <= a -> a + Z.of_nat n * esz <= zlen m ->
  v_rcollect esz m (Some (a + Z.of_nat n * esz)) n
  = Ok (rev (map (fun i => slice m (a + Z.of_nat i * esz) esz) (seq 0 n))).
Proof.
  intros He Ha. induction n as [|n IH]; intros Hn; [reflexivity|].
  cbn [v_rcollect]. rewrite rd_slice_ok by nia. cbn [bind padd].
  replace (a + Z.of_nat (S n) * esz + -1 * esz) with (a + Z.of_nat n * esz) by nia.
  rewrite IH by nia. cbn [bind]. f_equal. rewrite seq_S, map_app, rev_app_distr. cbn [map rev app].
  f_equal. f_equal. nia.
Qed.
Lemma riterate_exact W esz m v :
  0 < esz -> view_ok W esz m v -> v_riterate esz m v = Ok (rev (view_elems esz m v)).
Proof.
  intros He [Hs Hp]. unfold v_riterate, v_end, view_elems. destruct (vptr v) as [a|]; cbn [padd bind].
  - replace (vsize v * esz) with (Z.of_nat (Z.to_nat (vsize v)) * esz) by (rewrite Z2Nat.id; lia).
    apply rcollect_exact; try lia; rewrite Z2Nat.id by lia; lia.
  - rewrite Hp. reflexivity.
Qed.

Lemma concat_slices (m : list Z) e n b : 0 < e -> 0 <= b ->
  concat (map (fun i => slice m (b + Z.of_nat i * e) e) (seq 0 n)) = slice m b (Z.of_nat n * e).
Proof.
  intros He0 Hb. induction n as [|n IH]; [reflexivity|].
  rewrite seq_S, map_app, concat_app, IH. cbn [map concat]. rewrite app_nil_r.
  replace (Z.of_nat (S n) * e) with (Z.of_nat n * e + e) by nia.
  rewrite slice_app_split by nia. reflexivity.
Qed.
Lemma range_exact W esz m v : 0 < esz -> view_ok W esz m v ->
  v_string_view v = (v_begin v, v_size v) /\
  match v_begin v with
  | Some a => v_end esz v = Ok (Some (a + v_size v * esz)) /\
              slice m a (v_size v * esz) = concat (view_elems esz m v)
  | None => v_end esz v = Ok None /\ v_size v = 0
  end.
Proof.
  intros He [Hs Hp]. split; [reflexivity|]. unfold v_begin, v_end, v_size, view_elems.
  destruct (vptr v) as [a|]; cbn [padd].
  - split; [reflexivity|]. rewrite concat_slices by lia. rewrite Z2Nat.id by lia. reflexivity.
  - rewrite Hp. split; reflexivity.
Qed.

Lemma as_bytes_exact W esz m v :
  0 < esz -> view_ok W esz m v -> zlen m < SIZE_LIMIT W ->
  vptr (v_as_bytes W esz v) = vptr v /\ vsize (v_as_bytes W esz v) = vsize v * esz /\
  view_ok W 1 m (v_as_bytes W esz v) /\
  concat (view_elems 1 m (v_as_bytes W esz v)) = concat (view_elems esz m v).
Proof.
  intros He [Hs Hp] Hm. unfold v_as_bytes, v_size_bytes.
  assert (Hsm : 0 <= vsize v * esz < SIZE_LIMIT W).
  { destruct (vptr v); [nia|]. rewrite Hp in *. lia. }
  change (SIZE_MOD W) with (SIZE_LIMIT W). rewrite Z.mod_small by assumption. cbn [vptr vsize].
  split; [reflexivity|]. split; [reflexivity|]. split.
  { split; cbn [vsize vptr]; [assumption|]. destruct (vptr v); [lia|]. rewrite Hp. lia. }
  unfold view_elems. cbn [vptr vsize]. destruct (vptr v) as [a|]; [|reflexivity].
  pose proof (concat_slices m) as G.
  rewrite !G by lia. f_equal. rewrite !Z2Nat.id by lia. lia.
Qed.

(** writing byte [k] through the byte view *)
Lemma put_byte_exact W esz m v k x :
  0 < esz -> view_ok W esz m v -> zlen m < SIZE_LIMIT W -> 0 <= k < vsize v * esz ->
  exists a m', vptr v = Some a /\ v_put 1 m (v_as_bytes W esz v) k [x] = Ok m' /\ zlen m' = zlen m /\
  (forall j, 0 <= j < zlen m -> nthZ m' j = if j =? a + k then x else nthZ m j) /\
  forall i, 0 <= i < vsize v ->
    nth (Z.to_nat i) (view_elems esz m' v) [] =
      let e := nth (Z.to_nat i) (view_elems esz m v) [] in
      if i =? k / esz then blit e (k mod esz) [x] else e.
Proof.
  intros He Hv Hm Hk.
  destruct (as_bytes_exact _ _ _ _ He Hv Hm) as (Hp & Hsz & _).
  unfold v_put. rewrite Hp. destruct Hv as [Hs Hpv] eqn:Hveq. clear Hveq.
  destruct (vptr v) as [a|] eqn:E; [|lia].
  replace (a + k * 1) with (a + k) by lia.
  rewrite wr_slice_ok by (change (zlen [x]) with 1; lia).
  exists a. eexists. split; [reflexivity|]. split; [reflexivity|].
  assert (Hl : zlen (blit m (a + k) [x]) = zlen m) by (apply zlen_blit; [|change (zlen [x]) with 1]; lia).
  split; [assumption|]. split.
  { intros j Hj. rewrite nthZ_blit by (change (zlen [x]) with 1; lia). change (zlen [x]) with 1.
    destruct (Z.eqb_spec j (a + k)) as [->|Hj'].
    - replace ((a + k <=? a + k) && (a + k <? a + k + 1)) with true by lia. rewrite Z.sub_diag. reflexivity.
    - replace ((a + k <=? j) && (j <? a + k + 1)) with false by lia. reflexivity. }
  intros i Hi.
  assert (Hv1 : view_ok W esz m v) by (split; [|rewrite E]; auto).
  assert (Hv2 : view_ok W esz (blit m (a + k) [x]) v) by (split; [|rewrite E, Hl]; auto).
  pose proof (at_exact _ _ _ _ i He Hv1 Hi) as A1. pose proof (at_exact _ _ _ _ i He Hv2 Hi) as A2.
  unfold v_at in A1, A2. rewrite E in A1, A2.
  rewrite rd_slice_ok in A1, A2 by nia. injection A1 as A1. injection A2 as A2.
  rewrite <- A1, <- A2. cbv zeta.
  pose proof (Z.div_mod k esz ltac:(lia)) as Hdm. pose proof (Z.mod_pos_bound k esz He) as Hmb.
  destruct (Z.eqb_spec i (k / esz)) as [->|Hne].
  - apply list_extZ.
    { rewrite zlen_slice by nia. rewrite zlen_blit; rewrite ?zlen_slice by nia; try lia.
      change (zlen [x]) with 1. lia. }
    intros j Hj. rewrite zlen_slice in Hj by nia.
    rewrite nthZ_slice by nia.
    rewrite !nthZ_blit; rewrite ?zlen_slice by nia; change (zlen [x]) with 1; try nia.
    rewrite nthZ_slice by nia.
    replace ((a + k <=? a + k / esz * esz + j) && (a + k / esz * esz + j <? a + k + 1))
      with ((k mod esz <=? j) && (j <? k mod esz + 1)) by nia.
    destruct ((k mod esz <=? j) && (j <? k mod esz + 1)); [|reflexivity]. f_equal. nia.
  - rewrite slice_blit_out; change (zlen [x]) with 1; try nia. reflexivity.
Qed.

Lemma subspan_subspan W esz v a b v1 v2 :
  0 < esz -> 0 <= a -> 0 <= b -> 0 <= vsize v < NPOS W ->
  v_subspan W esz v a (NPOS W) = Ok v1 -> v_subspan W esz v1 b (NPOS W) = Ok v2 ->
  v_subspan W esz v (a + b) (NPOS W) = Ok v2.
Proof.
  intros He Ha Hb Hs H1 H2. unfold v_subspan in *. rewrite Z.eqb_refl in *.
  destruct (Z.leb_spec (vsize v) a) as [Hle|Hlt].
  - injection H1 as <-. cbn [vsize view_empty] in H2.
    replace (0 <=? b) with true in H2 by lia. injection H2 as <-.
    replace (vsize v <=? a + b) with true by lia. reflexivity.
  - destruct (vptr v) as [p|]; cbn [padd bind] in *.
    + injection H1 as <-. cbn [vsize vptr padd bind] in H2.
      replace (vsize v <=? a + b) with (vsize v - a <=? b) by lia.
      destruct (vsize v - a <=? b); [exact H2|]. injection H2 as <-. f_equal. f_equal; [f_equal; lia|lia].
    + destruct (Z.eqb_spec a 0) as [->|]; [|discriminate]. cbn [bind] in H1. injection H1 as <-.
      cbn [vsize vptr padd bind] in H2. rewrite Z.sub_0_r in H2. exact H2.
Qed.

Lemma first_last_split W esz m v n :
  0 < esz -> view_ok W esz m v -> 0 <= n <= vsize v ->
  exists w, v_last esz v (vsize v - n) = Ok w /\
    view_elems esz m (v_first v n) ++ view_elems esz m w = view_elems esz m v.
Proof.
  intros He Hv Hn. assert (0 <= vsize v < SIZE_LIMIT W) by apply Hv.
  destruct (last_exact W esz m v (vsize v - n)) as (w & Hw & _ & Hel & _); try lia; try assumption.
  exists w. split; [assumption|].
  destruct (first_exact W esz m v n) as (_ & Hf & _); try lia; try assumption.
  rewrite Hf, Hel. replace (Z.max 0 (vsize v - (vsize v - n))) with n by lia.
  unfold takeZ, dropZ. apply firstn_skipn.
Qed.

Lemma access_exact W esz m v :
  0 < esz -> view_ok W esz m v ->
  v_iterate esz m v = Ok (view_elems esz m v) /\
  v_riterate esz m v = Ok (rev (view_elems esz m v)) /\
  zlen (view_elems esz m v) = v_size v /\
  (v_is_empty v = true <-> view_elems esz m v = []) /\
  (forall i, 0 <= i < vsize v -> v_at esz m v i = Ok (nth (Z.to_nat i) (view_elems esz m v) [])) /\
  (vsize v <> 0 -> v_front esz m v = Ok (hd [] (view_elems esz m v)) /\
                   v_back esz m v = Ok (last (view_elems esz m v) [])).
Proof.
  intros He Hv. pose proof (elems_length _ _ _ _ Hv) as Hl.
  assert (0 <= vsize v) by apply Hv.
  split; [apply (iterate_exact W); assumption|]. split; [apply (riterate_exact W); assumption|].
  split; [exact Hl|]. split.
  { unfold v_is_empty. rewrite Z.eqb_eq. split; intros H0.
    - destruct (view_elems esz m v); [reflexivity|]. rewrite zlen_cons in Hl.
      pose proof (zlen_nonneg l0). lia.
    - rewrite H0 in Hl. cbn in Hl. lia. }
  split; [intros; apply (at_exact W); assumption|].
  intros Hne. unfold v_front, v_back. rewrite !(at_exact W) by (try assumption; lia).
  destruct (view_elems esz m v) as [|e es] eqn:E; [cbn in Hl; lia|].
  split; [reflexivity|]. f_equal. unfold zlen in Hl.
  assert (Hnil : view_elems esz m v <> []) by (rewrite E; discriminate).
  rewrite <- E in *.
  replace (Z.to_nat (vsize v - 1)) with (length (view_elems esz m v) - 1)%nat by lia.
  clear - Hnil. generalize dependent (view_elems esz m v). intros l Hnil.
  destruct (exists_last Hnil) as (l' & x & ->). rewrite app_length. cbn [length].
  replace (length l' + 1 - 1)%nat with (length l') by lia.
  rewrite app_nth2, Nat.sub_diag, last_last by lia. reflexivity.
Qed.

Lemma begin_end_exact esz b n : 0 < esz -> 0 <= n ->
  view_begin_end esz b (b + n * esz) = mkview (Some b) n /\
  v_end esz (view_begin_end esz b (b + n * esz)) = Ok (Some (b + n * esz)).
Proof.
  intros He Hn. unfold view_begin_end. replace (b + n * esz - b) with (n * esz) by lia.
  rewrite Z.div_mul by lia. split; reflexivity.
Qed.

Lemma concat_size esz (elems : list (list Z)) : Forall (fun e => zlen e = esz) elems -> zlen (concat elems) = zlen elems * esz.
Proof.
  induction 1 as [|e l He _ IH]; [reflexivity|]. cbn [concat]. rewrite zlen_app, zlen_cons, He, IH. lia.
Qed.
Lemma array_elems esz (elems : list (list Z)) : 0 < esz -> Forall (fun e => zlen e = esz) elems -> forall pre post : list Z,
  map (fun i => slice (pre ++ concat elems ++ post) (zlen pre + Z.of_nat i * esz) esz) (seq 0 (length elems)) = elems.
Proof.
  intros He. induction 1 as [|e l E _ IH]; intros pre post; [reflexivity|]. cbn [concat length seq map]. f_equal.
  - rewrite Z.add_0_r, <- app_assoc. rewrite <- E. apply slice_mid.
  - rewrite (map_seq_shift _ 1). specialize (IH (pre ++ e) post). rewrite zlen_app, E in IH. rewrite <- app_assoc in IH. rewrite <- app_assoc.
    etransitivity; [|exact IH]. apply map_ext. intros i. f_equal. lia.
Qed.
Lemma made_exact W esz (pre post : list Z) (elems : list (list Z)) v : 0 < esz -> Forall (fun e => zlen e = esz) elems -> zlen elems < SIZE_LIMIT W ->
  v = mkview (Some (zlen pre)) (zlen elems) ->
  view_ok W esz (pre ++ concat elems ++ post) v /\ view_elems esz (pre ++ concat elems ++ post) v = elems.
Proof.
  intros He HF HL ->. unfold view_ok, view_elems. cbn [vptr vsize]. split.
  - rewrite !zlen_app, (concat_size esz) by exact HF. pose proof (zlen_nonneg pre). pose proof (zlen_nonneg post). pose proof (zlen_nonneg elems). lia.
  - unfold zlen at 2. rewrite Nat2Z.id. apply array_elems; assumption.
Qed.
