From Verif Require Import Base M_Storage S_Storage S_Handles L_Storage L_Storage2.

(** An object that knows of the first records only: [t] is whatever follows them. *)
Definition View (s : st) (rs : list rec) : Prop :=
  exists t, buf s = encs rs ++ t /\ head s = zlen (encs rs) /\ Forall rec_ok rs /\ zlen (buf s) < 4294967296.

Lemma getIdx_view fuel s rs name n : View s rs -> enough fuel (buf s) ->
  (exists r1 r r2, rs = r1 ++ r :: r2 /\ rmatch name n r = true /\
      Forall (fun x => rmatch name n x = false) r1 /\ lookup rs name n = Some (snd r) /\
      getIdx fuel (buf s) (head s) name n 0 = Ok (Some (zlen (encs r1)))) \/
  (Forall (fun x => rmatch name n x = false) rs /\ lookup rs name n = None /\
      getIdx fuel (buf s) (head s) name n 0 = Ok None).
Proof.
  intros (t & Eb & Eh & Hok & Hs) He.
  pose proof (enough_recs _ _ _ Hok ltac:(rewrite <- Eb; exact He)) as Hf.
  destruct (first_match name n rs) as [(r1 & r & r2 & E & Hm & Hn & Hl)|[Hn Hl]].
  - left. exists r1, r, r2. repeat split; auto. subst rs.
    apply Forall_app in Hok. destruct Hok as [Hok1 Hok2]. inversion_clear Hok2 as [|? ? Hr Hok3].
    rewrite encs_app, encs_cons in *. rewrite <- !app_assoc in Eb.
    rewrite app_length in Hf. rewrite Eb, Eh in *.
    pose proof (getIdx_hit name n (zlen (encs r1 ++ enc r ++ encs r2)) r1 [] r r2 t fuel Hok1 Hr Hn Hm) as G.
    cbn [app encs map concat] in G. apply G.
    + rewrite !zlen_app. pose proof (zlen_nonneg (encs r2)). unfold encs in *. lia.
    + rewrite !zlen_app. pose proof (zlen_nonneg t). unfold encs in *. lia.
    + assumption.
    + lia.
  - right. repeat split; auto. rewrite Eb, Eh in *.
    pose proof (getIdx_miss name n rs [] t fuel Hok Hn) as G. cbn [app encs map concat] in G. apply G; assumption.
Qed.
Lemma get_view fuel s rs name n : View s rs -> enough fuel (buf s) -> get fuel s name n = Ok (lookup rs name n).
Proof.
  intros HR He. unfold get.
  destruct (getIdx_view fuel s rs name n HR He) as [(r1 & r & r2 & E & Hm & Hn & Hl & G)|(Hn & Hl & G)];
    rewrite G, Hl; cbn [bind]; [|reflexivity].
  destruct HR as (t & Eb & Eh & Hok & Hs). subst rs. rewrite encs_app, encs_cons in Eb.
  apply Forall_app in Hok. destruct Hok as [Hok1 Hok2]. inversion_clear Hok2 as [|? ? Hr Hok3].
  rewrite <- !app_assoc in Eb. rewrite Eb. rewrite node_idx_enc by auto. cbn [bind].
  rewrite node_size_enc by auto. cbn [bind]. rewrite match_code by apply Hr. rewrite Hm.
  rewrite node_data_enc; auto. unfold rmatch in Hm. rewrite !andb_true_iff, Z.eqb_eq in Hm. symmetry. apply Hm.
Qed.
(** an entry among the first records is set in place, whatever the object knows of the others *)
Lemma set_view fuel s t rs rs2 name obj v : View s rs -> Rep t (rs ++ rs2) -> buf t = buf s -> enough fuel (buf s) -> zlen obj <= 65529 ->
  lookup rs name (zlen obj) = Some v ->
  exists b, set fuel s name obj = Ok (true, mkst b (head s)) /\ set fuel t name obj = Ok (true, mkst b (head t)).
Proof.
  intros HV HR EB He Ho Hl. unfold set, set_plan.
  destruct (getIdx_view fuel s rs name (zlen obj) HV He) as [(r1 & r & r2 & E & Hm & Hn & _ & G)|(_ & Hl' & _)]; [|congruence].
  assert (HT : getIdx fuel (buf t) (head t) name (zlen obj) 0 = Ok (Some (zlen (encs r1)))).
  { destruct (getIdx_rep fuel t (rs ++ rs2) name (zlen obj) HR ltac:(rewrite EB; exact He)) as [(q1 & q & q2 & E' & Hm' & Hn' & _ & G')|(Hn' & _)].
    - assert (K : q1 = r1); [|rewrite K in G'; exact G']. subst rs. rewrite <- app_assoc in E'. cbn [app] in E'. clear - E' Hm Hn Hm' Hn'.
      revert q1 E' Hn'. induction r1 as [|x r1 IH]; intros [|y q1] E' Hn'; [reflexivity| | |]; cbn [app] in E'.
      + injection E' as -> _. pose proof (Forall_inv Hn') as K. cbn in K. congruence.
      + injection E' as <- _. pose proof (Forall_inv Hn) as K. cbn in K. congruence.
      + injection E' as -> E'. f_equal. exact (IH (Forall_inv_tail Hn) q1 E' (Forall_inv_tail Hn')).
    - exfalso. subst rs. rewrite !Forall_app in Hn'. destruct Hn' as [[_ K] _]. pose proof (Forall_inv K) as K1. cbn in K1. congruence. }
  rewrite EB in HT |- *. rewrite G, HT. cbn [bind apply_stores w_off w_data].
  destruct HV as (u & Eb & _ & Hok & _). subst rs. apply Forall_app in Hok. destruct Hok as [Hok1 Hok2]. inversion_clear Hok2 as [|? ? Hr Hok3].
  rewrite encs_app, encs_cons, <- !app_assoc in Eb. rewrite Eb, wr_data_enc; [|exact Hr|].
  - cbn [bind]. eexists. split; reflexivity.
  - unfold rmatch in Hm. rewrite !andb_true_iff, Z.eqb_eq in Hm. symmetry. apply Hm.
Qed.

(** ** The newest view *)
Definition SimR (s : st) (m : rmap) (rs : list rec) : Prop :=
  Rep s rs /\ NoDup (keys rs) /\ r_cap m = zlen (buf s) /\ r_used m = zlen (encs rs) /\
  forall k n, zlen k = 4 -> r_map m k n = lookup rs k n.
Lemma simr_sim s m rs : SimR s m rs -> Sim s m.
Proof. intros H. exists rs. exact H. Qed.
Lemma simr_set fuel s m rs name obj : SimR s m rs -> enough fuel (buf s) -> zlen obj <= 65529 -> zlen name <= 4 ->
  exists s' rs', set fuel s name obj = Ok (fst (r_set m name obj), s') /\ SimR s' (snd (r_set m name obj)) rs' /\
    zlen (buf s') = zlen (buf s) /\
    (r_map m (pad4 name) (zlen obj) <> None -> fst (r_set m name obj) = true /\ keys rs' = keys rs) /\
    (r_map m (pad4 name) (zlen obj) = None -> fst (r_set m name obj) = true -> keys rs' = keys rs ++ [(pad4 name, zlen obj)]) /\
    (fst (r_set m name obj) = false -> s' = s /\ rs' = rs).
Proof.
  intros (HR & Hnd & Hc & Hu & Hm) He Ho Hn.
  destruct (set_rep fuel s rs name obj HR He Ho) as (s' & Hset & HR' & Hlen & Hsame & _).
  assert (E : fst (r_set m name obj) = fst (set_recs (zlen (buf s)) rs name obj)).
  { unfold r_set, set_recs. rewrite Hm by apply pad4_len. rewrite <- lookup_pad by assumption.
    destruct (lookup rs name (zlen obj)); [reflexivity|]. rewrite Hu, Hc.
    destruct (Z.leb_spec (zlen (encs rs) + 6 + zlen obj) (zlen (buf s)));
      destruct (Z.ltb_spec (zlen (buf s)) (zlen (encs rs) + 6 + zlen obj)); try reflexivity; lia. }
  exists s', (snd (set_recs (zlen (buf s)) rs name obj)). rewrite <- E in Hset, Hsame. split; [exact Hset|]. unfold SimR.
  assert (EM : r_map m (pad4 name) (zlen obj) = lookup rs name (zlen obj)) by (rewrite Hm by apply pad4_len; symmetry; apply lookup_pad; exact Hn).
  rewrite EM. unfold r_set, set_recs in *. rewrite EM in *.
  destruct (lookup rs name (zlen obj)) as [v|] eqn:El; cbn [fst snd r_cap r_used r_map] in *.
  - rewrite keys_upd. split; [|split; [exact Hlen|split; [intros _; split; reflexivity|split; [discriminate|discriminate]]]].
    split; [exact HR'|]. split; [assumption|]. split; [lia|]. split.
    { rewrite Hu. clear - El. unfold encs. induction rs as [|r rs IH]; [reflexivity|].
      cbn [upd lookup] in *. destruct (rmatch name (zlen obj) r) eqn:E.
      - cbn [map concat]. rewrite !zlen_app. f_equal. unfold rmatch in E.
        rewrite !andb_true_iff, Z.eqb_eq, eqbl_spec in E. destruct E as [[_ E1] E2].
        rewrite !zlen_enc by (cbn [fst]; rewrite E1; apply pad4_len). cbn [snd]. lia.
      - cbn [map concat]. rewrite !zlen_app, IH by assumption. reflexivity. }
    intros k n Hk. unfold r_upd. rewrite (lookup_upd _ _ _ _ Hn El) by assumption. rewrite Hm by assumption. reflexivity.
  - assert (EL2 := El). rewrite lookup_pad in EL2 by assumption. rewrite Hu, Hc in *.
    destruct (Z.leb_spec (zlen (encs rs) + 6 + zlen obj) (zlen (buf s)));
      destruct (Z.ltb_spec (zlen (buf s)) (zlen (encs rs) + 6 + zlen obj)); try lia;
      cbn [fst snd r_cap r_used r_map] in *.
    + split; [|split; [exact Hlen|split; [intros K; contradiction|split; [intros _ _; unfold keys; rewrite map_app; reflexivity|discriminate]]]].
      split; [exact HR'|]. split. { unfold keys. rewrite map_app. apply nodup_snoc; [assumption|].
               apply (lookup_none_keys rs); [apply pad4_len|assumption]. }
      split; [lia|]. split.
      { rewrite encs_app, zlen_app. change (encs [(pad4 name, obj)]) with (enc (pad4 name, obj) ++ []).
        rewrite app_nil_r, (zlen_enc (pad4 name, obj)) by apply pad4_len. cbn [snd]. lia. }
      intros k n Hk. unfold r_upd. rewrite lookup_app_new by assumption. rewrite Hm by assumption. reflexivity.
    + split; [|split; [exact Hlen|split; [intros K; contradiction|split; [discriminate|intros _; split; [apply Hsame; reflexivity|reflexivity]]]]].
      split; [exact HR'|]. split; [assumption|]. split; [lia|]. split; [lia|]. assumption.
Qed.

(** ** All objects *)
Definition total (ks : list (list Z * Z)) : Z := fold_right (fun k a => 6 + snd k + a) 0 ks.
Lemma encs_total rs : Forall rec_ok rs -> zlen (encs rs) = total (keys rs).
Proof. induction 1 as [|r rs [Hr _] H IH]; [reflexivity|]. rewrite encs_cons, zlen_app, zlen_enc, IH by exact Hr. cbn [keys map total fold_right key snd]. fold (keys rs). fold (total (keys rs)). lia. Qed.
Lemma keys_firstn k rs : keys (firstn k rs) = firstn k (keys rs).
Proof. unfold keys. symmetry. apply firstn_map. Qed.
Definition knows (ks : list (list Z * Z)) (h : Z) (f : keyset) : Prop :=
  exists k, (k <= length ks)%nat /\ h = total (firstn k ks) /\ forall key n, zlen key = 4 -> (f key n = true <-> In (key, n) (firstn k ks)).
Definition top (s : shared) (rs : list rec) : st := mkst (region s) (zlen (encs rs)).
Definition HInv (s : shared) (r : rshared) : Prop :=
  exists rs, SimR (top s rs) (contents r) rs /\ forall i, knows (keys rs) (heads s i) (known r i).

Lemma view_of s m rs h f : SimR (top s rs) m rs -> knows (keys rs) h f ->
  exists rs1 rs2, rs = rs1 ++ rs2 /\ View (mkst (region s) h) rs1 /\ forall key n, zlen key = 4 -> (f key n = true <-> In (key, n) (keys rs1)).
Proof.
  intros ((t & Eb & Eh & Hok & Ht & Hs) & _) (k & Hk & -> & Hf). exists (firstn k rs), (skipn k rs). pose proof (firstn_skipn k rs) as E.
  split; [symmetry; exact E|]. assert (Hok1 : Forall rec_ok (firstn k rs)) by (rewrite <- E in Hok; apply Forall_app in Hok; apply Hok).
  split; [|intros; rewrite keys_firstn; apply Hf; assumption].
  exists (encs (skipn k rs) ++ t). cbn [buf head top] in *. split; [rewrite Eb; rewrite <- E at 1; rewrite encs_app, <- app_assoc; reflexivity|].
  split; [rewrite <- keys_firstn; symmetry; apply encs_total; exact Hok1|]. split; assumption.
Qed.
Lemma knows_app ks x h f : knows ks h f -> knows (ks ++ x) h f.
Proof.
  intros (k & Hk & -> & Hf). exists k. split; [rewrite app_length; lia|]. rewrite firstn_app. replace (k - length ks)%nat with O by lia. cbn [firstn]. rewrite app_nil_r. split; [reflexivity|exact Hf].
Qed.
Lemma keys_dec (a b : list Z * Z) : {a = b} + {a <> b}.
Proof. repeat decide equality. Qed.
Lemma all_keys_in s m rs : SimR s m rs -> forall key n, zlen key = 4 -> (all_keys m key n = true <-> In (key, n) (keys rs)).
Proof.
  intros (_ & _ & _ & _ & Hm) key n Hk. unfold all_keys. rewrite Hm by exact Hk. pose proof (lookup_none_keys rs key n Hk) as N.
  destruct (lookup rs key n) as [v|].
  - split; [intros _|reflexivity]. destruct (in_dec keys_dec (key, n) (keys rs)) as [H|H]; [exact H|]. apply N in H. discriminate.
  - split; [discriminate|]. intros H. exfalso. apply (proj1 N); [reflexivity|exact H].
Qed.

Lemma knows_all s m rs : SimR s m rs -> knows (keys rs) (zlen (encs rs)) (all_keys m).
Proof.
  intros H. exists (length (keys rs)). split; [lia|]. rewrite firstn_all. split; [|exact (all_keys_in s m rs H)].
  destruct H as ((t & _ & _ & Hok & _) & _). apply encs_total, Hok.
Qed.
Lemma hinv_open fuel s r i : HInv s r -> enough fuel (region s) ->
  exists s', hstep fuel s (HOpen i) = Ok (fst (rh_step r (HOpen i)), s') /\ HInv s' (snd (rh_step r (HOpen i))) /\ zlen (region s') = zlen (region s).
Proof.
  intros (rs & HS & HK) He. cbn [hstep rh_step fst snd]. rewrite (sim_open fuel (top s rs) (contents r) (simr_sim _ _ _ HS) He) || (change (region s) with (buf (top s rs)) at 1; rewrite (sim_open fuel (top s rs) (contents r) (simr_sim _ _ _ HS) He)).
  cbn [bind]. eexists. split; [reflexivity|]. split; [|reflexivity]. exists rs. cbn [contents known]. split; [exact HS|].
  intros j. cbn [after heads]. unfold learns. destruct (Nat.eqb j i); [|apply HK]. exact (knows_all _ _ _ HS).
Qed.
Lemma hinv_get fuel s r i name n : HInv s r -> enough fuel (region s) -> zlen name <= 4 ->
  hstep fuel s (HGet i name n) = Ok (fst (rh_step r (HGet i name n)), s).
Proof.
  intros (rs & HS & HK) He Hn. cbn [hstep rh_step fst snd]. unfold object.
  destruct (view_of s _ rs _ _ HS (HK i)) as (rs1 & rs2 & E & HV & Hkn). rewrite (get_view fuel _ rs1 name n HV He). cbn [bind]. do 3 f_equal.
  rewrite lookup_pad by exact Hn. unfold r_get. destruct HS as (_ & _ & _ & _ & Hm). rewrite Hm by apply pad4_len. rewrite E, lookup_app.
  specialize (Hkn (pad4 name) n (pad4_len name)). pose proof (lookup_none_keys rs1 (pad4 name) n (pad4_len name)) as N.
  destruct (lookup rs1 (pad4 name) n) as [v|].
  - destruct (known r i (pad4 name) n); [reflexivity|]. exfalso. destruct (in_dec keys_dec (pad4 name, n) (keys rs1)) as [H|H]; [apply Hkn in H; discriminate|apply N in H; discriminate].
  - destruct (known r i (pad4 name) n); [|reflexivity]. exfalso. apply (proj1 N); [reflexivity|]. apply Hkn. reflexivity.
Qed.
Lemma hinv_set fuel s r i name obj : HInv s r -> enough fuel (region s) -> zlen name <= 4 -> zlen obj <= 65529 -> careful_op r (HSet i name obj) ->
  exists s', hstep fuel s (HSet i name obj) = Ok (fst (rh_step r (HSet i name obj)), s') /\ HInv s' (snd (rh_step r (HSet i name obj))) /\ zlen (region s') = zlen (region s).
Proof.
  intros (rs & HS & HK) He Hn Ho HC. cbn [hstep rh_step]. cbn [careful_op] in HC. unfold object.
  destruct (view_of s _ rs _ _ HS (HK i)) as (rs1 & rs2 & E & HV & Hkn). assert (HKi := HK i).
  destruct (simr_set fuel (top s rs) (contents r) rs name obj HS He Ho Hn) as (t & rs' & ES & HS' & HL & A & B & C). cbn [top buf] in HL.
  specialize (Hkn (pad4 name) (zlen obj) (pad4_len name)).
  destruct (known r i (pad4 name) (zlen obj)) eqn:EK.
  - assert (HI : In (pad4 name, zlen obj) (keys rs1)) by (apply Hkn; reflexivity). clear HC Hkn.
    destruct (lookup rs1 name (zlen obj)) as [v|] eqn:EL.
    2: { exfalso. rewrite lookup_pad in EL by exact Hn. apply lookup_none_keys in EL; [contradiction|apply pad4_len]. }
    assert (HR : Rep (top s rs) (rs1 ++ rs2)) by (rewrite <- E; apply HS).
    destruct (set_view fuel (mkst (region s) (heads s i)) (top s rs) rs1 rs2 name obj v HV HR eq_refl He Ho EL) as (b & S1 & S2).
    rewrite S1. rewrite S2 in ES. cbn [bind head top] in *. apply Ok_inj in ES. injection ES as EF <-.
    assert (NN : r_map (contents r) (pad4 name) (zlen obj) <> None).
    { destruct HS as (_ & _ & _ & _ & Hm). rewrite Hm by apply pad4_len. rewrite E, lookup_app, <- lookup_pad, EL by exact Hn. discriminate. }
    destruct (A NN) as [_ EKs]. destruct (r_set (contents r) name obj) as [ok m']. cbn [fst snd] in *. subst ok.
    eexists. split; [reflexivity|]. cbn [after region heads buf head] in *. split; [|exact HL]. exists rs'. cbn [contents known].
    assert (EH : zlen (encs rs') = zlen (encs rs)).
    { destruct HS as ((? & _ & _ & O1 & _) & _). destruct HS' as ((? & _ & _ & O2 & _) & _). rewrite !encs_total, EKs by assumption. reflexivity. }
    split; [unfold top; cbn [region]; rewrite EH; exact HS'|]. rewrite EKs. intros j. cbn [heads after]. destruct (Nat.eqb j i) eqn:EJ; [apply Nat.eqb_eq in EJ; subst j|]; cbn [head]; apply HK.
  - destruct HC as [HC|HC]; [discriminate|]. clear A.
    assert (EO : heads s i = zlen (encs rs)).
    { destruct HKi as (k & Hk & -> & Hf). destruct HS as ((? & _ & _ & O1 & _) & ND & _ & _ & Hm). rewrite encs_total by exact O1. f_equal.
      destruct (Nat.eq_dec k (length (keys rs))) as [->|Ne]; [apply firstn_all|]. exfalso.
      destruct (skipn k (keys rs)) as [|[kk n] tl] eqn:Esk; [apply (f_equal (@length _)) in Esk; rewrite skipn_length in Esk; cbn in Esk; lia|].
      assert (I : In (kk, n) (keys rs)) by (rewrite <- (firstn_skipn k (keys rs)), Esk; apply in_or_app; right; left; reflexivity).
      assert (L4 : zlen kk = 4). { unfold keys in I. apply in_map_iff in I. destruct I as (x0 & Ex & Ix). rewrite Forall_forall in O1. destruct (O1 x0 Ix) as [O2 _]. unfold key in Ex. congruence. }
      assert (K : known r i kk n = true). { apply HC; [exact L4|]. rewrite Hm by exact L4. intros N. apply lookup_none_keys in N; [contradiction|exact L4]. }
      apply Hf in K; [|exact L4]. rewrite <- (firstn_skipn k (keys rs)), Esk in ND. apply NoDup_remove_2 in ND. apply ND, in_or_app. left. exact K. }
    rewrite EO. fold (top s rs). rewrite ES. cbn [bind].
    assert (NN : r_map (contents r) (pad4 name) (zlen obj) = None).
    { destruct (r_map (contents r) (pad4 name) (zlen obj)) eqn:Er; [|reflexivity]. rewrite HC in EK; [discriminate|apply pad4_len|congruence]. }
    specialize (B NN). destruct (r_set (contents r) name obj) as [ok m'] eqn:ER. cbn [fst snd] in *.
    eexists. split; [reflexivity|]. cbn [after region]. split; [|exact HL]. exists rs'. cbn [contents known].
    assert (ET : top (after s i t) rs' = t).
    { destruct HS' as ((u & _ & Eh & _) & _). destruct t as [tb th]. cbn [buf head top after region] in *. unfold top. cbn [region after buf]. congruence. }
    split; [rewrite ET; exact HS'|]. intros j. cbn [heads after]. unfold learns. destruct (Nat.eqb j i).
    + replace (head t) with (zlen (encs rs')) by (destruct HS' as ((u & _ & Eh & _) & _); symmetry; exact Eh). exact (knows_all _ _ _ HS').
    + destruct ok; [rewrite B by reflexivity; apply knows_app, HK|]. destruct (C eq_refl) as [_ ->]. apply HK.
Qed.
Lemma hinv_exec fuel ops : forall s r, HInv s r -> enough fuel (region s) -> Forall hop_ok ops -> careful r ops ->
  exists s', hexec fuel s ops = Ok (fst (rh_exec r ops), s').
Proof.
  induction ops as [|o ops IH]; intros s r HI He HO HC; [exists s; reflexivity|]. cbn [careful] in HC. destruct HC as [HC1 HC2].
  pose proof (Forall_inv HO) as HO1. assert (S1 : exists s1, hstep fuel s o = Ok (fst (rh_step r o), s1) /\ HInv s1 (snd (rh_step r o)) /\ zlen (region s1) = zlen (region s)).
  { destruct o as [i|i name obj|i name n]; cbn [hop_ok] in HO1.
    - apply hinv_open; assumption.
    - apply hinv_set; try assumption; apply HO1.
    - exists s. split; [apply hinv_get; try assumption; apply HO1|]. split; [exact HI|reflexivity]. }
  destruct S1 as (s1 & E1 & HI1 & L1). cbn [hexec rh_exec]. rewrite E1. cbn [bind]. destruct (rh_step r o) as [a r1]. cbn [fst snd] in *.
  destruct (IH s1 r1 HI1 (enough_len _ _ _ L1 He) (Forall_inv_tail HO) HC2) as (s2 & E2). rewrite E2. cbn [bind]. destruct (rh_exec r1 ops) as [l r2]. cbn [fst]. exists s2. reflexivity.
Qed.
Lemma hinv_fresh b : zlen b < 4294967296 -> HInv (fresh b) (r_fresh (zlen b)).
Proof.
  intros Hb. exists []. split.
  - split; [exact (rep_init b Hb)|]. split; [constructor|]. cbn. rewrite zlen_repeat. split; [reflexivity|]. split; reflexivity.
  - intros i. exists O. split; [cbn; lia|]. split; [reflexivity|]. intros key n _. cbn. split; [discriminate|tauto].
Qed.
(** ** One writer *)
Lemma writer_step r w o : up_to_date r w -> writes_by w o -> careful_op r o /\ up_to_date (snd (rh_step r o)) w.
Proof.
  intros HU HW. destruct o as [i|i name obj|i name n]; cbn [writes_by careful_op rh_step snd] in *.
  - split; [exact I|]. intros k n Hk H. cbn [contents known] in *. unfold learns. destruct (Nat.eqb w i); [|exact (HU k n Hk H)].
    unfold all_keys. destruct (r_map (contents r) k n); [reflexivity|contradiction].
  - subst i. split; [right; exact HU|]. unfold r_set. destruct (known r w (pad4 name) (zlen obj)) eqn:EK.
    + intros k n Hk H.
      destruct (r_map (contents r) (pad4 name) (zlen obj)) as [v|] eqn:Ev; [|destruct (r_used (contents r) + 6 + zlen obj <=? r_cap (contents r))]; cbn [fst snd contents known r_map] in *; try (exact (HU k n Hk H)).
      * unfold r_upd in H. destruct (eqbl k (pad4 name) && (n =? zlen obj)) eqn:Ek; [|exact (HU k n Hk H)].
        apply andb_true_iff in Ek. destruct Ek as [E1 E2]. apply eqbl_spec in E1. apply Z.eqb_eq in E2. subst. exact EK.
      * unfold r_upd in H. destruct (eqbl k (pad4 name) && (n =? zlen obj)) eqn:Ek; [|exact (HU k n Hk H)].
        apply andb_true_iff in Ek. destruct Ek as [E1 E2]. apply eqbl_spec in E1. apply Z.eqb_eq in E2. subst. exact EK.
    + match goal with |- up_to_date (snd (let (_, _) := ?x in _)) _ => destruct x as [ok m] end. cbn [snd]. intros k n Hk H. cbn [contents known] in *. unfold learns. rewrite Nat.eqb_refl.
      unfold all_keys. destruct (r_map m k n); [reflexivity|contradiction].
  - split; [exact I|exact HU].
Qed.
Lemma writer_careful w ops : forall r, up_to_date r w -> Forall (writes_by w) ops -> careful r ops.
Proof.
  induction ops as [|o ops IH]; intros r HU HW; [exact I|]. cbn [careful]. destruct (writer_step r w o HU (Forall_inv HW)) as [A B]. split; [exact A|]. exact (IH _ B (Forall_inv_tail HW)).
Qed.
