From Verif Require Import Base M_Storage S_Storage L_Storage.

(** ** Record lists against the reference map *)
Lemma pad4_pad4 name : pad4 (pad4 name) = pad4 name.
Proof. unfold pad4. destruct name as [|a [|b [|c [|d l]]]]; reflexivity. Qed.
Lemma pad4_id k : zlen k = 4 -> pad4 k = k.
Proof.
  intros H. destruct k as [|a [|b [|c [|d [|]]]]]; unfold zlen in H; cbn [length] in H; try lia. reflexivity.
Qed.
Lemma rmatch_pad name n r : zlen name <= 4 -> rmatch name n r = rmatch (pad4 name) n r.
Proof.
  intros H. unfold rmatch. rewrite pad4_pad4, pad4_len. replace (zlen name <=? 4) with true by lia. reflexivity.
Qed.
Lemma lookup_pad rs name n : zlen name <= 4 -> lookup rs name n = lookup rs (pad4 name) n.
Proof.
  intros H. induction rs as [|r rs IH]; [reflexivity|]. cbn [lookup]. rewrite <- rmatch_pad, IH by assumption. reflexivity.
Qed.
Lemma lookup_long rs name n : 4 < zlen name -> lookup rs name n = None.
Proof.
  intros H. induction rs as [|r rs IH]; [reflexivity|]. cbn [lookup]. unfold rmatch.
  replace (zlen name <=? 4) with false by lia. exact IH.
Qed.
Lemma rmatch_key k n r : zlen k = 4 -> rmatch k n r = eqbl (fst r) k && (zlen (snd r) =? n).
Proof. intros H. unfold rmatch. rewrite pad4_id, H by assumption. reflexivity. Qed.

Lemma lookup_upd rs name obj v : zlen name <= 4 -> lookup rs name (zlen obj) = Some v ->
  forall k n, zlen k = 4 ->
  lookup (upd name obj rs) k n = if eqbl k (pad4 name) && (n =? zlen obj) then Some obj else lookup rs k n.
Proof.
  intros Hn Hl k n Hk. rewrite lookup_pad in Hl by assumption.
  induction rs as [|r rs IH]; [discriminate|].
  cbn [lookup upd] in *. rewrite rmatch_pad by assumption.
  rewrite (rmatch_key (pad4 name)) in Hl |- * by apply pad4_len.
  destruct (eqbl (fst r) (pad4 name) && (zlen (snd r) =? zlen obj)) eqn:E.
  - apply andb_true_iff in E. destruct E as [E1 E2]. apply eqbl_spec in E1. apply Z.eqb_eq in E2.
    cbn [lookup]. rewrite !rmatch_key by assumption. cbn [fst snd]. rewrite E1.
    destruct (eqbl (pad4 name) k) eqn:Ek.
    + apply eqbl_spec in Ek. subst k. rewrite eqbl_refl. cbn [andb]. rewrite E2, (Z.eqb_sym (zlen obj) n).
      destruct (n =? zlen obj); reflexivity.
    + replace (eqbl k (pad4 name)) with false; [reflexivity|]. symmetry. apply eqbl_neq. intros ->.
      rewrite eqbl_refl in Ek. discriminate.
  - cbn [lookup]. rewrite IH by assumption. rewrite !rmatch_key by assumption.
    destruct (eqbl k (pad4 name) && (n =? zlen obj)) eqn:Ek; [|reflexivity].
    apply andb_true_iff in Ek. destruct Ek as [E1 E2]. apply eqbl_spec in E1. apply Z.eqb_eq in E2. subst k n.
    rewrite E. reflexivity.
Qed.
Lemma lookup_app a b k n : lookup (a ++ b) k n = match lookup a k n with Some v => Some v | None => lookup b k n end.
Proof. induction a as [|r a IH]; [reflexivity|]. cbn [lookup app]. destruct (rmatch k n r); [reflexivity|]. exact IH. Qed.
Lemma lookup_app_new rs name obj : lookup rs (pad4 name) (zlen obj) = None ->
  forall k n, zlen k = 4 ->
  lookup (rs ++ [(pad4 name, obj)]) k n = if eqbl k (pad4 name) && (n =? zlen obj) then Some obj else lookup rs k n.
Proof.
  intros Hl k n Hk. rewrite lookup_app. cbn [lookup]. rewrite rmatch_key by assumption. cbn [fst snd].
  destruct (eqbl k (pad4 name)) eqn:E.
  - apply eqbl_spec in E. subst k. rewrite eqbl_refl, (Z.eqb_sym (zlen obj)). cbn [andb].
    destruct (Z.eqb_spec n (zlen obj)) as [->|]; [rewrite Hl; reflexivity|].
    destruct (lookup rs (pad4 name) n); reflexivity.
  - replace (eqbl (pad4 name) k) with false.
    + cbn [andb]. destruct (lookup rs k n); reflexivity.
    + symmetry. apply eqbl_neq. intros <-. rewrite eqbl_refl in E. discriminate.
Qed.

Definition key (r : rec) : list Z * Z := (fst r, zlen (snd r)).
Definition keys (rs : list rec) := map key rs.
Lemma keys_upd name obj rs : keys (upd name obj rs) = keys rs.
Proof.
  unfold keys. induction rs as [|r rs IH]; [reflexivity|]. cbn [upd].
  destruct (rmatch name (zlen obj) r) eqn:E; cbn [map].
  - f_equal. unfold rmatch in E. rewrite !andb_true_iff, Z.eqb_eq in E. unfold key. cbn [fst snd]. f_equal. symmetry. apply E.
  - rewrite IH. reflexivity.
Qed.
Lemma lookup_none_keys rs k n : zlen k = 4 -> (lookup rs k n = None <-> ~ In (k, n) (keys rs)).
Proof.
  intros Hk. induction rs as [|r rs IH]; [cbn; tauto|]. cbn [lookup keys map In].
  rewrite rmatch_key by assumption. destruct (eqbl (fst r) k && (zlen (snd r) =? n)) eqn:E.
  - apply andb_true_iff in E. destruct E as [E1 E2]. apply eqbl_spec in E1. apply Z.eqb_eq in E2.
    split; [discriminate|]. intros H. exfalso. apply H. left. unfold key. congruence.
  - rewrite IH. unfold keys. split; [|tauto]. intros H [H1|H1]; [|contradiction].
    unfold key in H1. injection H1 as H1 H2. rewrite H1, H2, eqbl_refl, Z.eqb_refl in E. discriminate.
Qed.

(** ** Simulation *)
Definition Sim (s : st) (m : rmap) : Prop :=
  exists rs, Rep s rs /\ NoDup (keys rs) /\ r_cap m = zlen (buf s) /\ r_used m = zlen (encs rs) /\
             forall k n, zlen k = 4 -> r_map m k n = lookup rs k n.

Lemma sim_init b : zlen b < 4294967296 -> Sim (ctor_init b) (r_init (zlen b)).
Proof.
  intros H. exists []. split; [apply rep_init; assumption|]. split; [constructor|].
  repeat split. cbn. rewrite zlen_repeat. reflexivity.
Qed.

Lemma nodup_snoc {A} (l : list A) x : NoDup l -> ~ In x l -> NoDup (l ++ [x]).
Proof.
  intros H Hx. induction H as [|y l Hy H IH]; cbn; [constructor; [auto|constructor]|].
  constructor.
  - rewrite in_app_iff. cbn. intros [H1|[H1|[]]]; [contradiction|]. subst. apply Hx. left. reflexivity.
  - apply IH. intros H1. apply Hx. right. exact H1.
Qed.

Lemma sim_set fuel s m name obj : Sim s m -> enough fuel (buf s) -> zlen obj <= 65529 -> zlen name <= 4 ->
  exists s', set fuel s name obj = Ok (fst (r_set m name obj), s') /\ Sim s' (snd (r_set m name obj)) /\
             zlen (buf s') = zlen (buf s) /\ (fst (r_set m name obj) = false -> s' = s).
Proof.
  intros (rs & HR & Hnd & Hc & Hu & Hm) He Ho Hn.
  destruct (set_rep fuel s rs name obj HR He Ho) as (s' & Hset & HR' & Hlen & Hsame & _).
  assert (E : fst (r_set m name obj) = fst (set_recs (zlen (buf s)) rs name obj)).
  { unfold r_set, set_recs. rewrite Hm by apply pad4_len. rewrite <- lookup_pad by assumption.
    destruct (lookup rs name (zlen obj)); [reflexivity|]. rewrite Hu, Hc.
    destruct (Z.leb_spec (zlen (encs rs) + 6 + zlen obj) (zlen (buf s)));
      destruct (Z.ltb_spec (zlen (buf s)) (zlen (encs rs) + 6 + zlen obj)); try reflexivity; lia. }
  exists s'. rewrite E. split; [assumption|]. split; [|split; [assumption|]]; [|assumption].
  exists (snd (set_recs (zlen (buf s)) rs name obj)). split; [assumption|].
  unfold r_set, set_recs in *. rewrite Hm by apply pad4_len. rewrite <- lookup_pad by assumption.
  destruct (lookup rs name (zlen obj)) as [v|] eqn:El; cbn [fst snd r_cap r_used r_map] in *.
  - rewrite keys_upd. split; [assumption|]. split; [lia|]. split.
    { rewrite Hu. clear - El. unfold encs. induction rs as [|r rs IH]; [reflexivity|].
      cbn [upd lookup] in *. destruct (rmatch name (zlen obj) r) eqn:E.
      - cbn [map concat]. rewrite !zlen_app. f_equal. unfold rmatch in E.
        rewrite !andb_true_iff, Z.eqb_eq, eqbl_spec in E. destruct E as [[_ E1] E2].
        rewrite !zlen_enc by (cbn [fst]; rewrite E1; apply pad4_len). cbn [snd]. lia.
      - cbn [map concat]. rewrite !zlen_app, IH by assumption. reflexivity. }
    intros k n Hk. unfold r_upd. rewrite (lookup_upd _ _ _ _ Hn El) by assumption. rewrite Hm by assumption. reflexivity.
  - rewrite lookup_pad in El by assumption. rewrite Hu, Hc in *.
    destruct (Z.leb_spec (zlen (encs rs) + 6 + zlen obj) (zlen (buf s)));
      destruct (Z.ltb_spec (zlen (buf s)) (zlen (encs rs) + 6 + zlen obj)); try lia;
      cbn [fst snd r_cap r_used r_map] in *.
    + split. { unfold keys. rewrite map_app. apply nodup_snoc; [assumption|].
               apply (lookup_none_keys rs); [apply pad4_len|assumption]. }
      split; [lia|]. split.
      { rewrite encs_app, zlen_app. change (encs [(pad4 name, obj)]) with (enc (pad4 name, obj) ++ []).
        rewrite app_nil_r, (zlen_enc (pad4 name, obj)) by apply pad4_len. cbn [snd]. lia. }
      intros k n Hk. unfold r_upd. rewrite lookup_app_new by assumption. rewrite Hm by assumption. reflexivity.
    + split; [assumption|]. split; [lia|]. split; [lia|]. assumption.
Qed.

Lemma sim_get fuel s m name n : Sim s m -> enough fuel (buf s) -> zlen name <= 4 ->
  get fuel s name n = Ok (r_get m name n).
Proof.
  intros (rs & HR & Hnd & Hc & Hu & Hm) He Hn. rewrite (get_rep fuel s rs) by assumption. f_equal.
  unfold r_get. rewrite Hm by apply pad4_len. apply lookup_pad. assumption.
Qed.
Lemma sim_open fuel s m : Sim s m -> enough fuel (buf s) -> ctor_open fuel (buf s) = Ok s.
Proof. intros (rs & HR & _) He. eapply open_rep; eassumption. Qed.

Lemma sim_step fuel s m o : Sim s m -> enough fuel (buf s) -> op_ok o -> short_name o ->
  exists s', step fuel s o = Ok (fst (r_step m o), s') /\ Sim s' (snd (r_step m o)) /\ zlen (buf s') = zlen (buf s).
Proof.
  intros HS He Ho Hs. destruct o as [name obj|name n|]; cbn [step r_step] in *.
  - destruct Ho as (_ & _ & Ho). destruct (sim_set fuel s m name obj HS He Ho Hs) as (s' & Hset & HS' & Hl & _).
    exists s'. rewrite Hset. cbn [bind]. destruct (r_set m name obj) as [b m']. cbn [fst snd] in *. auto.
  - exists s. rewrite (sim_get fuel s m) by assumption. cbn [bind fst snd]. auto.
  - exists s. rewrite (sim_open fuel s m) by assumption. cbn [bind fst snd]. auto.
Qed.
Lemma enough_len fuel b b' : zlen b' = zlen b -> enough fuel b -> enough fuel b'.
Proof. unfold enough, zlen. lia. Qed.

Lemma sim_exec fuel ops : forall s m, Sim s m -> enough fuel (buf s) -> Forall op_ok ops -> Forall short_name ops ->
  exists s', exec fuel s ops = Ok (fst (r_exec m ops), s') /\ Sim s' (snd (r_exec m ops)) /\ zlen (buf s') = zlen (buf s).
Proof.
  induction ops as [|o ops IH]; intros s m HS He Ho Hs.
  - exists s. cbn. auto.
  - inversion_clear Ho as [|? ? Ho1 Ho2]. inversion_clear Hs as [|? ? Hs1 Hs2].
    destruct (sim_step fuel s m o HS He Ho1 Hs1) as (s1 & E1 & HS1 & Hl1).
    cbn [exec r_exec]. rewrite E1. destruct (r_step m o) as [a m1]. cbn [fst snd bind] in *.
    destruct (IH s1 m1 HS1 ltac:(eapply enough_len; eassumption) Ho2 Hs2) as (s2 & E2 & HS2 & Hl2).
    exists s2. rewrite E2. destruct (r_exec m1 ops) as [l m2]. cbn [fst snd bind] in *.
    repeat split; auto. lia.
Qed.

Lemma storage_is_map fuel b0 ops :
  zlen b0 < 4294967296 -> (length b0 < fuel)%nat -> Forall op_ok ops -> Forall short_name ops ->
  exists s, exec fuel (ctor_init b0) ops = Ok (fst (r_exec (r_init (zlen b0)) ops), s).
Proof.
  intros Hb Hf Ho Hs.
  destruct (sim_exec fuel ops (ctor_init b0) (r_init (zlen b0))) as (s & E & _); auto using sim_init.
  - unfold enough. cbn. rewrite repeat_length. assumption.
  - exists s. exact E.
Qed.

Lemma exec_init_len fuel b0 : (length b0 < fuel)%nat -> enough fuel (buf (ctor_init b0)).
Proof. unfold enough. cbn. rewrite repeat_length. auto. Qed.

Lemma reachable_map_sim fuel s m : reachable_map fuel s m -> Sim s m /\ enough fuel (buf s).
Proof.
  intros (b0 & ops & l & Hb & Hf & Ho & Hs & E & ->).
  destruct (sim_exec fuel ops (ctor_init b0) (r_init (zlen b0))) as (s' & E' & HS & Hl);
    auto using sim_init, exec_init_len.
  rewrite E in E'. injection E' as _ <-. split; [assumption|].
  eapply enough_len; [eassumption|]. apply exec_init_len. assumption.
Qed.

(** space accounting *)
Definition total (ks : list (list Z * Z)) : Z := fold_right (fun k acc => 6 + snd k + acc) 0 ks.
Lemma total_encs rs : Forall rec_ok rs -> zlen (encs rs) = total (keys rs).
Proof.
  induction 1 as [|r rs [Hr _] H IH]; [reflexivity|].
  rewrite encs_cons, zlen_app, zlen_enc, IH by assumption. cbn. reflexivity.
Qed.
Lemma sim_space s m : Sim s m ->
  exists ks, NoDup ks /\ (forall k n, zlen k = 4 -> (In (k, n) ks <-> r_map m k n <> None)) /\
             r_used m = total ks.
Proof.
  intros (rs & HR & Hnd & Hc & Hu & Hm). exists (keys rs). split; [assumption|]. split.
  - intros k n Hk. rewrite Hm by assumption. pose proof (lookup_none_keys rs k n Hk) as H.
    destruct (in_dec (fun a b : list Z * Z => ltac:(decide equality; [apply Z.eq_dec|apply list_eq_dec, Z.eq_dec])) (k, n) (keys rs)); tauto.
  - rewrite Hu. destruct HR as (t & _ & _ & Hok & _). apply total_encs. assumption.
Qed.
Lemma set_false_iff fuel s m name obj : reachable_map fuel s m -> zlen name <= 4 -> zlen obj <= 65529 ->
  exists b s', set fuel s name obj = Ok (b, s') /\
    (b = false <-> r_get m name (zlen obj) = None /\ r_cap m < r_used m + 6 + zlen obj) /\
    (b = false -> s' = s) /\ zlen (buf s') = zlen (buf s) /\ r_cap m = zlen (buf s).
Proof.
  intros HR Hn Ho. apply reachable_map_sim in HR. destruct HR as [HS He].
  destruct (sim_set fuel s m name obj HS He Ho Hn) as (s' & E & _ & Hl & Hsame).
  exists (fst (r_set m name obj)), s'. split; [assumption|]. split; [|split; [assumption|split; [assumption|]]].
  - unfold r_set, r_get. destruct (r_map m (pad4 name) (zlen obj)); cbn [fst]; [split; [discriminate|intros [H _]; discriminate]|].
    destruct (Z.leb_spec (r_used m + 6 + zlen obj) (r_cap m)); cbn [fst]; split; try discriminate; try lia; auto.
  - destruct HS as (rs & _ & _ & Hc & _). exact Hc.
Qed.

(** ** Any names *)
Lemma rep_step fuel s rs o : Rep s rs -> enough fuel (buf s) -> op_ok o ->
  exists a s' rs', step fuel s o = Ok (a, s') /\ Rep s' rs' /\ zlen (buf s') = zlen (buf s).
Proof.
  intros HR He Ho. destruct o as [name obj|name n|]; cbn [step].
  - destruct Ho as (_ & _ & Ho). destruct (set_rep fuel s rs name obj HR He Ho) as (s' & E & HR' & Hl & _).
    rewrite E. cbn [bind]. eexists _, s', _. split; [reflexivity|]. split; eassumption.
  - rewrite (get_rep fuel s rs) by assumption. cbn [bind]. eexists _, s, rs. split; [reflexivity|]. auto.
  - rewrite (open_rep fuel s rs) by assumption. cbn [bind]. eexists _, s, rs. split; [reflexivity|]. auto.
Qed.
Lemma rep_exec fuel ops : forall s rs, Rep s rs -> enough fuel (buf s) -> Forall op_ok ops ->
  exists l s' rs', exec fuel s ops = Ok (l, s') /\ Rep s' rs' /\ zlen (buf s') = zlen (buf s).
Proof.
  induction ops as [|o ops IH]; intros s rs HR He Ho.
  - exists [], s, rs. cbn. auto.
  - inversion_clear Ho as [|? ? Ho1 Ho2].
    destruct (rep_step fuel s rs o HR He Ho1) as (a & s1 & rs1 & E1 & HR1 & Hl1).
    destruct (IH s1 rs1 HR1 ltac:(eapply enough_len; eassumption) Ho2) as (l & s2 & rs2 & E2 & HR2 & Hl2).
    exists (a :: l), s2, rs2. cbn [exec]. rewrite E1. cbn [bind]. rewrite E2. cbn [bind].
    split; [reflexivity|]. split; [assumption|]. lia.
Qed.
Lemma reachable_rep fuel s : reachable fuel s -> exists rs, Rep s rs /\ enough fuel (buf s).
Proof.
  intros (b0 & ops & l & Hb & Hf & Ho & E).
  destruct (rep_exec fuel ops (ctor_init b0) []) as (l' & s' & rs & E' & HR & Hl);
    auto using rep_init, exec_init_len.
  rewrite E in E'. injection E' as _ <-. exists rs. split; [assumption|].
  eapply enough_len; [eassumption|]. apply exec_init_len. assumption.
Qed.
Lemma reopen_same fuel s : reachable fuel s -> ctor_open fuel (buf s) = Ok s.
Proof. intros H. apply reachable_rep in H. destruct H as (rs & HR & He). eapply open_rep; eassumption. Qed.

Lemma set_then_get fuel s name obj s' : reachable fuel s -> zlen obj <= 65529 ->
  set fuel s name obj = Ok (true, s') ->
  get fuel s' name (zlen obj) = Ok (if zlen name <=? 4 then Some obj else None).
Proof.
  intros HR Ho Hset. apply reachable_rep in HR. destruct HR as (rs & HR & He).
  destruct (set_rep fuel s rs name obj HR He Ho) as (s1 & E & HR1 & Hl & _).
  rewrite Hset in E. injection E as Eb <-.
  rewrite (get_rep fuel s' _ _ _ HR1) by (eapply enough_len; eassumption). f_equal.
  destruct (Z.leb_spec (zlen name) 4) as [Hn|Hn]; [|apply lookup_long; assumption].
  unfold set_recs in *. destruct (lookup rs name (zlen obj)) as [v|] eqn:El.
  - cbn [fst snd]. rewrite lookup_pad by assumption. rewrite (lookup_upd _ _ _ _ Hn El) by apply pad4_len.
    rewrite eqbl_refl, Z.eqb_refl. reflexivity.
  - destruct (zlen (buf s) <? zlen (encs rs) + 6 + zlen obj); [discriminate|]. cbn [fst snd].
    rewrite lookup_pad in El |- * by assumption. rewrite lookup_app_new by (try assumption; apply pad4_len).
    rewrite eqbl_refl, Z.eqb_refl. reflexivity.
Qed.
Lemma long_name_get fuel s name n : reachable fuel s -> 4 < zlen name -> get fuel s name n = Ok None.
Proof.
  intros HR Hn. apply reachable_rep in HR. destruct HR as (rs & HR & He).
  rewrite (get_rep fuel s rs) by assumption. rewrite lookup_long by assumption. reflexivity.
Qed.
(** a set of a long name: succeeds iff it fits, always consumes a fresh record, and is visible under the
    first four bytes if those were absent *)
Lemma long_name_set fuel s name obj : reachable fuel s -> 4 < zlen name -> zlen obj <= 65529 ->
  exists s', set fuel s name obj = Ok (head s + 6 + zlen obj <=? zlen (buf s), s') /\
    (head s + 6 + zlen obj <= zlen (buf s) -> head s' = head s + 6 + zlen obj) /\
    (head s + 6 + zlen obj <= zlen (buf s) -> get fuel s (firstn 4 name) (zlen obj) = Ok None ->
       get fuel s' (firstn 4 name) (zlen obj) = Ok (Some obj)).
Proof.
  intros HR Hn Ho. apply reachable_rep in HR. destruct HR as (rs & HR & He).
  destruct (set_rep fuel s rs name obj HR He Ho) as (s1 & E & HR1 & Hl & _).
  exists s1. unfold set_recs in *. rewrite lookup_long in * by assumption.
  assert (Eh : head s = zlen (encs rs)) by (destruct HR as (t & _ & H & _); exact H).
  assert (Eh1 : head s1 = zlen (encs (snd (if zlen (buf s) <? zlen (encs rs) + 6 + zlen obj then (false, rs) else (true, rs ++ [(pad4 name, obj)])))))
    by (destruct HR1 as (t & _ & H & _); exact H).
  rewrite Eh.
  destruct (Z.ltb_spec (zlen (buf s)) (zlen (encs rs) + 6 + zlen obj)) as [H|H]; cbn [fst snd] in *.
  - split; [|split; lia]. rewrite E. f_equal. f_equal. lia.
  - split; [rewrite E; f_equal; f_equal; lia|]. split.
    + intros _. rewrite Eh1, encs_app, zlen_app. change (encs [(pad4 name, obj)]) with (enc (pad4 name, obj) ++ []).
      rewrite app_nil_r, (zlen_enc (pad4 name, obj)) by apply pad4_len. cbn [snd]. lia.
    + intros _ Hg. rewrite (get_rep fuel s rs) in Hg by assumption.
      assert (Hg' : lookup rs (firstn 4 name) (zlen obj) = None) by congruence. clear Hg.
      rewrite (get_rep fuel s1 _ _ _ HR1) by (eapply enough_len; eassumption). f_equal.
      assert (Hp : pad4 name = firstn 4 name).
      { unfold pad4. rewrite firstn_app. unfold zlen in Hn. replace (4 - length name)%nat with 0%nat by lia.
        cbn [firstn]. apply app_nil_r. }
      rewrite Hp in *. assert (H4 : zlen (firstn 4 name) = 4) by (rewrite <- Hp; apply pad4_len).
      rewrite lookup_app, Hg'. cbn [lookup]. rewrite rmatch_key by assumption. cbn [fst snd].
      rewrite eqbl_refl, Z.eqb_refl. reflexivity.
Qed.
