From Verif Require Import Base M_Storage S_Storage L_Storage L_Storage2.

(** ** Mixes *)
Lemma mix_refl_l a b : zlen a = zlen b -> mix a b a.
Proof. intros H. split; [reflexivity|]. split; [auto|]. intros; auto. Qed.
Lemma mix_refl_r a b : zlen a = zlen b -> mix a b b.
Proof. intros H. split; [auto|]. split; [auto|]. intros; auto. Qed.
Lemma mix_mid a x y c l : zlen x = zlen y -> mix (a ++ x ++ c) (a ++ y ++ c) l ->
  exists z, l = a ++ z ++ c /\ mix x y z.
Proof.
  intros Hxy (Hl & _ & H). rewrite !zlen_app in Hl, H.
  pose proof (zlen_nonneg a). pose proof (zlen_nonneg x). pose proof (zlen_nonneg c).
  destruct (split_at l (zlen a)) as (a' & l1 & -> & Ha'); [lia|]. rewrite zlen_app in Hl.
  destruct (split_at l1 (zlen x)) as (z & c' & -> & Hz); [lia|]. rewrite zlen_app in Hl.
  assert (Ea : a' = a).
  { apply list_extZ; [assumption|]. intros i Hi. specialize (H i ltac:(lia)). rewrite !nthZ_app1 in H by lia. tauto. }
  subst a'.
  assert (Ec : c' = c).
  { apply list_extZ; [lia|]. intros i Hi. specialize (H (zlen a + zlen x + i) ltac:(lia)).
    rewrite !(nthZ_app2 a) in H by lia.
    rewrite !nthZ_app2 in H by lia.
    replace (zlen a + zlen x + i - zlen a - zlen z) with i in H by lia.
    replace (zlen a + zlen x + i - zlen a - zlen x) with i in H by lia.
    replace (zlen a + zlen x + i - zlen a - zlen y) with i in H by lia. tauto. }
  subst c'. exists z. split; [reflexivity|]. split; [assumption|]. split; [lia|].
  intros i Hi. specialize (H (zlen a + i) ltac:(lia)). rewrite !(nthZ_app2 a) in H by lia.
  replace (zlen a + i - zlen a) with i in H by lia. rewrite !nthZ_app1 in H by lia. exact H.
Qed.
Lemma zeros_repeat l n : zlen l = Z.of_nat n -> (forall i, 0 <= i < zlen l -> nthZ l i = 0) -> l = repeat 0 n.
Proof.
  intros Hl H. apply list_extZ; [rewrite zlen_repeat; assumption|]. intros i Hi. rewrite H by assumption.
  unfold nthZ. symmetry. apply nth_repeat.
Qed.

(** ** Crashes with ordered stores *)
Lemma crash_cons b w ws b' : crash_ordered b (w :: ws) b' ->
  b' = b \/ (exists b1, wr_slice b (w_off w) (w_data w) = Ok b1 /\ crash_ordered b1 ws b') \/
  (w_scalar w = false /\ exists b1, wr_slice b (w_off w) (w_data w) = Ok b1 /\ mix b b1 b').
Proof. intros H. inversion H; subst; eauto 8. Qed.
Lemma crash_nil b b' : crash_ordered b [] b' -> b' = b.
Proof. intros H. inversion H; auto. Qed.
Lemma enc_mid k d a c : a ++ enc (k, d) ++ c = (a ++ [(6 + zlen d) mod 256; (6 + zlen d) / 256] ++ k) ++ d ++ c.
Proof. unfold enc. cbn [fst snd]. rewrite <- !app_assoc. reflexivity. Qed.

Lemma crash_append a t name obj b' :
  zlen obj <= 65529 -> 6 + zlen obj <= zlen t -> tail_ok t ->
  crash_ordered (a ++ t) [mkstore (zlen a + 2) (idx_bytes name) false;
                          mkstore (zlen a) (size_bytes (HDR + zlen obj)) true;
                          mkstore (zlen a + HDR) obj false] b' ->
  (exists t', b' = a ++ t' /\ zlen t' = zlen t /\ tail_ok t') \/
  (exists v c, b' = a ++ enc (pad4 name, v) ++ c /\ mix (repeat 0 (length obj)) obj v /\ tail_ok c /\
               6 + zlen v + zlen c = zlen t).
Proof.
  intros Ho Ht Hok Hc. pose proof (zlen_nonneg obj).
  destruct (append_stores a t name obj Ho Ht) as (h & k & d & c & -> & Hh & Hk & Hd & W1 & W2 & W3).
  assert (Hd0 : d = repeat 0 (length obj)).
  { apply zeros_repeat; [unfold zlen in Hd |- *; lia|]. intros i Hi.
    specialize (Hok (6 + i)). rewrite !zlen_app in Hok. pose proof (zlen_nonneg c).
    rewrite !nthZ_app in Hok by lia. replace (6 + i <? zlen h) with false in Hok by lia.
    replace (6 + i - zlen h <? zlen k) with false in Hok by lia.
    replace (6 + i - zlen h - zlen k <? zlen d) with true in Hok by lia.
    replace (6 + i - zlen h - zlen k) with i in Hok by lia. apply Hok; lia. }
  assert (Hc0 : tail_ok c).
  { apply (tail_ok_suffix (h ++ k ++ d) c); [rewrite !zlen_app; lia|]. rewrite <- !app_assoc. assumption. }
  assert (Hz : forall z, zlen z = 4 -> tail_ok (h ++ z ++ d ++ c)).
  { intros z Hz i Hi Hc'. rewrite !zlen_app in Hi.
    specialize (Hok i ltac:(rewrite !zlen_app; lia) Hc').
    destruct (Z.lt_ge_cases i (zlen h)); [rewrite nthZ_app1 in * by lia; assumption|].
    rewrite nthZ_app2 in * by lia. rewrite nthZ_app2 in * by lia. rewrite Hz. rewrite Hk in Hok. assumption. }
  assert (Hm0 : zlen (repeat 0 (length obj)) = zlen obj) by (rewrite zlen_repeat; reflexivity).
  subst d.
  apply crash_cons in Hc. cbn [w_off w_data w_scalar] in Hc. rewrite W1 in Hc.
  destruct Hc as [->|[(b1 & E1 & Hc)|(_ & b1 & E1 & Hmx)]].
  - left. exists (h ++ k ++ repeat 0 (length obj) ++ c). auto.
  - apply Ok_inj in E1; subst b1. apply crash_cons in Hc. cbn [w_off w_data w_scalar] in Hc. rewrite W2 in Hc.
    destruct Hc as [->|[(b1 & E1 & Hc)|(Hf & _)]]; [| |discriminate].
    + left. exists (h ++ pad4 name ++ repeat 0 (length obj) ++ c). split; [reflexivity|].
      split; [rewrite !zlen_app, pad4_len; lia|]. apply Hz. apply pad4_len.
    + apply Ok_inj in E1; subst b1. right.
      apply crash_cons in Hc. cbn [w_off w_data w_scalar] in Hc. rewrite W3 in Hc.
      destruct Hc as [->|[(b1 & E1 & Hc)|(_ & b1 & E1 & Hmx)]].
      * exists (repeat 0 (length obj)), c. rewrite !zlen_app. split; [reflexivity|]. 
        split; [apply mix_refl_l; assumption|]. split; [assumption|]. lia.
      * apply Ok_inj in E1; subst b1. apply crash_nil in Hc. subst b'. exists obj, c. rewrite !zlen_app.
        split; [reflexivity|]. split; [apply mix_refl_r; assumption|]. split; [assumption|]. lia.
      * apply Ok_inj in E1; subst b1.
        rewrite (enc_mid (pad4 name) (repeat 0 (length obj))) in Hmx.
        rewrite (enc_mid (pad4 name) obj) in Hmx.
        replace (6 + zlen (repeat 0 (length obj))) with (6 + zlen obj) in Hmx by lia.
        apply mix_mid in Hmx; [|assumption]. destruct Hmx as (z & -> & Hmx). exists z, c.
        assert (Hzl : zlen z = zlen obj) by (destruct Hmx as (H1 & _); lia).
        rewrite enc_mid, Hzl, !zlen_app. split; [reflexivity|]. split; [assumption|]. split; [assumption|]. lia.
  - apply Ok_inj in E1; subst b1. left.
    rewrite (app_assoc a h), (app_assoc a h) in Hmx. apply mix_mid in Hmx; [|rewrite pad4_len; lia].
    destruct Hmx as (z & -> & Hmx). assert (Hzl : zlen z = 4) by (destruct Hmx as (H1 & _); lia).
    exists (h ++ z ++ repeat 0 (length obj) ++ c). rewrite <- app_assoc.
    split; [reflexivity|]. split; [rewrite !zlen_app; lia|]. apply Hz. assumption.
Qed.

Lemma crash_over a r c obj b' : rec_ok r -> zlen obj = zlen (snd r) ->
  crash_ordered (a ++ enc r ++ c) [mkstore (zlen a + HDR) obj false] b' ->
  exists v, b' = a ++ enc (fst r, v) ++ c /\ mix (snd r) obj v.
Proof.
  intros Hr Ho Hc. destruct r as [k d]. cbn [fst snd] in *.
  pose proof (wr_data_enc a (k, d) c obj Hr Ho) as W. cbn [fst] in W.
  apply crash_cons in Hc. cbn [w_off w_data w_scalar] in Hc. rewrite W in Hc.
  destruct Hc as [->|[(b1 & E1 & Hc)|(_ & b1 & E1 & Hmx)]].
  - exists d. split; [reflexivity|]. apply mix_refl_l. auto.
  - apply Ok_inj in E1; subst b1. apply crash_nil in Hc. subst b'.
    exists obj. split; [reflexivity|]. apply mix_refl_r. auto.
  - apply Ok_inj in E1; subst b1.
    rewrite (enc_mid k d), (enc_mid k obj), <- Ho in Hmx. apply mix_mid in Hmx; [|auto].
    destruct Hmx as (z & -> & Hmx). exists z. split; [|exact Hmx]. rewrite enc_mid.
    assert (H : zlen z = zlen obj) by (destruct Hmx as (H1 & _); lia). rewrite H. reflexivity.
Qed.

Lemma sim_of_rep fuel s' rs' m' :
  Rep s' rs' -> enough fuel (buf s') -> NoDup (keys rs') -> r_cap m' = zlen (buf s') ->
  r_used m' = zlen (encs rs') -> (forall k n, zlen k = 4 -> r_map m' k n = lookup rs' k n) ->
  ctor_open fuel (buf s') = Ok s' /\ Sim s' m'.
Proof.
  intros HR He Hnd Hc Hu Hm. split; [eapply open_rep; eassumption|]. exists rs'. auto 6.
Qed.

Lemma encs_upd_len name obj rs : zlen (encs (upd name obj rs)) = zlen (encs rs).
Proof.
  unfold encs. induction rs as [|r rs IH]; [reflexivity|]. cbn [upd].
  destruct (rmatch name (zlen obj) r) eqn:E.
  - cbn [map concat]. rewrite !zlen_app. f_equal. unfold rmatch in E.
    rewrite !andb_true_iff, Z.eqb_eq, eqbl_spec in E. destruct E as [[_ E1] E2].
    rewrite !zlen_enc by (cbn [fst]; rewrite E1; apply pad4_len). cbn [snd]. lia.
  - cbn [map concat]. rewrite !zlen_app, IH. reflexivity.
Qed.

Lemma sim_crash fuel s m name obj ws h b' :
  Sim s m -> enough fuel (buf s) -> zlen obj <= 65529 -> zlen name <= 4 ->
  set_plan fuel s name obj = Ok (Some (ws, h)) -> crash_ordered (buf s) ws b' ->
  exists s' m', ctor_open fuel b' = Ok s' /\
    rstep m (ECrash name obj) AUnit m' /\ Sim s' m' /\ zlen (buf s') = zlen (buf s).
Proof.
  intros HS He Ho Hn Hp Hc. destruct HS as (rs & HR & Hnd & Hcap & Hu & Hm).
  unfold set_plan in Hp.
  destruct (getIdx_rep fuel s rs name (zlen obj) HR He) as [(r1 & r & r2 & E & Hmt & Hnm & Hl & G)|(Hnm & Hl & G)];
    rewrite G in Hp; cbn [bind] in Hp.
  - injection Hp as <- _. destruct HR as (t & Eb & Eh & Hok & Ht & Hs).
    assert (Hok' := Hok). rewrite E in Hok'. apply Forall_app in Hok'. destruct Hok' as [Hok1 Hok2].
    inversion_clear Hok2 as [|? ? Hr Hok3].
    assert (Hod : zlen obj = zlen (snd r)).
    { unfold rmatch in Hmt. rewrite !andb_true_iff, Z.eqb_eq in Hmt. symmetry. apply Hmt. }
    assert (Eb2 : buf s = encs r1 ++ enc r ++ (encs r2 ++ t)).
    { rewrite Eb, E, encs_app, encs_cons, <- !app_assoc. reflexivity. }
    rewrite Eb2 in Hc. apply crash_over in Hc; [|assumption|assumption]. destruct Hc as (v & -> & Hmx).
    assert (Hvl : zlen v = zlen obj) by (destruct Hmx as (H1 & _); lia).
    assert (Eu : upd name v rs = r1 ++ (fst r, v) :: r2).
    { rewrite E. apply upd_first; rewrite Hvl; assumption. }
    assert (HR' : Rep (mkst (encs r1 ++ enc (fst r, v) ++ encs r2 ++ t) (head s)) (upd name v rs)).
    { exists t. cbn [buf head]. rewrite encs_upd_len. rewrite Eu, encs_app, encs_cons, <- !app_assoc.
      split; [reflexivity|]. split; [assumption|]. split.
      - apply Forall_app. split; [assumption|]. constructor; [|assumption]. split; [apply Hr|cbn [snd]; lia].
      - split; [assumption|]. rewrite Eb2 in Hs. rewrite !zlen_app, !zlen_enc in * by apply Hr. cbn [snd]. lia. }
    assert (Hlen : zlen (encs r1 ++ enc (fst r, v) ++ encs r2 ++ t) = zlen (buf s)).
    { rewrite Eb2, !zlen_app, !zlen_enc by apply Hr. cbn [snd]. lia. }
    assert (Hlk : lookup rs name (zlen v) = Some (snd r)) by (rewrite Hvl; assumption).
    destruct (sim_of_rep fuel _ _ (mkrm (r_cap m) (r_used m) (r_upd (r_map m) (pad4 name) v)) HR') as [Ho' HS'].
    + cbn [buf]. eapply enough_len; eassumption.
    + rewrite keys_upd. assumption.
    + cbn [r_cap buf]. lia.
    + cbn [r_used]. rewrite encs_upd_len. assumption.
    + intros k n Hk. cbn [r_map]. unfold r_upd. rewrite (lookup_upd _ _ _ _ Hn Hlk) by assumption.
      rewrite Hm by assumption. reflexivity.
    + cbn [buf] in Ho'. eexists _, _. split; [exact Ho'|]. split; [|split; [exact HS'|exact Hlen]].
      apply rs_crash_over with (old := snd r); [|assumption].
      rewrite Hm by apply pad4_len. rewrite <- lookup_pad by assumption. assumption.
  - destruct (zlen (buf s) <? head s + (HDR + zlen obj)) eqn:Efull; [discriminate|].
    apply Z.ltb_ge in Efull. injection Hp as <- _.
    destruct HR as (t & Eb & Eh & Hok & Ht & Hs).
    rewrite Eb, Eh in Hc, Efull. rewrite zlen_app in Efull. unfold HDR in Efull.
    apply crash_append in Hc; [|assumption|lia|assumption].
    destruct Hc as [(t' & -> & Hl' & Ht')|(v & c & -> & Hmx & Hct & Hlc)].
    + assert (HR' : Rep (mkst (encs rs ++ t') (head s)) rs).
      { exists t'. cbn [buf head]. repeat split; try assumption. rewrite Eb in Hs. rewrite zlen_app in *. lia. }
      assert (Hlen : zlen (encs rs ++ t') = zlen (buf s)) by (rewrite Eb, !zlen_app; lia).
      destruct (sim_of_rep fuel _ _ m HR') as [Ho' HS']; auto; cbn [buf] in *.
      * eapply enough_len; eassumption.
      * lia.
      * eexists _, m. split; [exact Ho'|]. split; [apply rs_crash_none|]. split; assumption.
    + assert (Hvl : zlen v = zlen obj) by (destruct Hmx as (H1 & _); rewrite zlen_repeat in H1; exact H1).
      assert (Ee : encs (rs ++ [(pad4 name, v)]) = encs rs ++ enc (pad4 name, v)).
      { rewrite encs_app. change (encs [(pad4 name, v)]) with (enc (pad4 name, v) ++ []). rewrite app_nil_r. reflexivity. }
      assert (Hle : zlen (enc (pad4 name, v)) = 6 + zlen v) by (apply (zlen_enc (pad4 name, v)), pad4_len).
      assert (HR' : Rep (mkst (encs rs ++ enc (pad4 name, v) ++ c) (zlen (encs rs) + 6 + zlen v)) (rs ++ [(pad4 name, v)])).
      { exists c. cbn [buf head]. rewrite Ee, <- app_assoc. split; [reflexivity|]. split; [rewrite zlen_app, Hle; lia|].
        split; [apply Forall_app; split; [assumption|]; constructor; [|constructor]; split; [apply pad4_len|cbn [snd]; lia]|].
        split; [assumption|]. rewrite Eb in Hs. rewrite !zlen_app in *. lia. }
      assert (Hlen : zlen (encs rs ++ enc (pad4 name, v) ++ c) = zlen (buf s)) by (rewrite Eb, !zlen_app; lia).
      assert (Hlk : lookup rs (pad4 name) (zlen v) = None) by (rewrite Hvl, <- lookup_pad by assumption; assumption).
      destruct (sim_of_rep fuel _ _ (mkrm (r_cap m) (r_used m + 6 + zlen obj) (r_upd (r_map m) (pad4 name) v)) HR') as [Ho' HS'].
      * cbn [buf]. eapply enough_len; eassumption.
      * unfold keys. rewrite map_app. apply nodup_snoc; [assumption|]. cbn [map key fst snd].
        apply (lookup_none_keys rs); [apply pad4_len|assumption].
      * cbn [r_cap buf]. lia.
      * cbn [r_used]. rewrite Ee, zlen_app. lia.
      * intros k n Hk. cbn [r_map]. unfold r_upd. rewrite lookup_app_new by assumption. rewrite Hm by assumption. reflexivity.
      * cbn [buf] in Ho'. eexists _, _. split; [exact Ho'|]. split; [|split; [exact HS'|exact Hlen]].
        apply rs_crash_new; try assumption.
        -- rewrite Hm by apply pad4_len. rewrite <- lookup_pad by assumption. assumption.
        -- rewrite Hu, Hcap, Eb, zlen_app. lia.
Qed.

Lemma sim_mstep fuel s m e a s' : Sim s m -> enough fuel (buf s) -> event_ok e -> mstep fuel s e a s' ->
  exists m', rstep m e a m' /\ Sim s' m' /\ zlen (buf s') = zlen (buf s).
Proof.
  intros HS He Hok Hst. inversion Hst as [s0 o a0 s1 E|s0 name obj ws h b' s1 Hp Hc Hopen|s0 name obj s1 Hp Hopen]; subst.
  - destruct Hok as [Ho Hs]. destruct (sim_step fuel s m o HS He Ho Hs) as (s2 & E2 & HS2 & Hl).
    rewrite E in E2. injection E2 as -> ->. exists (snd (r_step m o)). split; [|auto].
    apply rs_op. destruct (r_step m o); reflexivity.
  - destruct Hok as [(_ & _ & Ho) Hn].
    destruct (sim_crash fuel s m name obj ws h b' HS He Ho Hn Hp Hc) as (s2 & m' & E & Hr & HS' & Hl).
    rewrite Hopen in E. apply Ok_inj in E. subst s2. exists m'. auto.
  - exists m. rewrite (sim_open fuel s m) in Hopen by assumption. injection Hopen as <-.
    split; [apply rs_crash_none|]. auto.
Qed.
Lemma sim_mrun fuel es : forall s m l s', Sim s m -> enough fuel (buf s) -> Forall event_ok es -> mrun fuel s es l s' ->
  exists m', rrun m es l m' /\ Sim s' m' /\ zlen (buf s') = zlen (buf s).
Proof.
  induction es as [|e es IH]; intros s m l s' HS He Hok Hr; inversion Hr; subst.
  - exists m. split; [constructor|]. auto.
  - inversion_clear Hok as [|? ? Ho1 Ho2].
    match goal with H : mstep _ _ _ _ ?s1 |- _ => destruct (sim_mstep _ _ _ _ _ _ HS He Ho1 H) as (m1 & Hr1 & HS1 & Hl1) end.
    match goal with H : mrun _ _ _ _ _ |- _ => destruct (IH _ _ _ _ HS1 ltac:(eapply enough_len; eassumption) Ho2 H) as (m2 & Hr2 & HS2 & Hl2) end.
    exists m2. split; [econstructor; eassumption|]. split; [assumption|]. lia.
Qed.

Lemma crash_history fuel b0 es l s :
  zlen b0 < 4294967296 -> (length b0 < fuel)%nat -> Forall event_ok es ->
  mrun fuel (ctor_init b0) es l s ->
  exists m, rrun (r_init (zlen b0)) es l m /\
    (* the state is fully usable: every continuation is answered as by the reference map *)
    forall ops, Forall op_ok ops -> Forall short_name ops ->
      exists s', exec fuel s ops = Ok (fst (r_exec m ops), s').
Proof.
  intros Hb Hf Hok Hr.
  destruct (sim_mrun fuel es _ _ _ _ (sim_init b0 Hb) (exec_init_len fuel b0 Hf) Hok Hr) as (m & Hrr & HS & Hl).
  exists m. split; [assumption|]. intros ops Ho Hs.
  destruct (sim_exec fuel ops s m HS) as (s' & E & _); try assumption.
  - eapply enough_len; [eassumption|]. apply exec_init_len. assumption.
  - exists s'. assumption.
Qed.

(** every event is possible: calls return and reopening after any crash terminates *)
Lemma crash_progress fuel b0 es l s name obj :
  zlen b0 < 4294967296 -> (length b0 < fuel)%nat -> Forall event_ok es ->
  mrun fuel (ctor_init b0) es l s -> zlen name <= 4 -> zlen obj <= 65529 ->
  exists p, set_plan fuel s name obj = Ok p /\
    forall ws h b', p = Some (ws, h) -> crash_ordered (buf s) ws b' -> exists s', ctor_open fuel b' = Ok s'.
Proof.
  intros Hb Hf Hok Hr Hn Ho.
  destruct (sim_mrun fuel es _ _ _ _ (sim_init b0 Hb) (exec_init_len fuel b0 Hf) Hok Hr) as (m & Hrr & HS & Hl).
  assert (He : enough fuel (buf s)) by (eapply enough_len; [eassumption|]; apply exec_init_len; assumption).
  destruct (sim_set fuel s m name obj HS He Ho Hn) as (s' & E & _).
  unfold set in E. destruct (set_plan fuel s name obj) as [p| |] eqn:Ep; try discriminate.
  exists p. split; [reflexivity|]. intros ws h b' -> Hc.
  destruct (sim_crash fuel s m name obj ws h b' HS He Ho Hn Ep Hc) as (s2 & m' & E2 & _). exists s2. exact E2.
Qed.

(** ** Scanning arbitrary bytes *)
Lemma node_size_at b p : 0 <= p -> p + 2 <= zlen b -> node_size b p = Ok (size_at b p).
Proof.
  intros. unfold node_size, size_at. rewrite rd_slice_ok by lia. cbn [bind]. rewrite !nthZ_slice by lia.
  rewrite Z.add_0_r. reflexivity.
Qed.
Lemma size_at_range b p : bytes b -> 0 <= size_at b p <= 65535.
Proof.
  intros H. unfold size_at. pose proof (bytes_nthZ b p H). pose proof (bytes_nthZ b (p + 1) H).
  unfold is_byte in *. lia.
Qed.
Lemma chain_le b p h : chain b p h -> p <= h.
Proof. induction 1; lia. Qed.
Lemma chain_inv b p h : chain b p h -> p = h \/
  (0 <= p /\ p + 6 <= zlen b /\ 0 < size_at b p /\ p + size_at b p <= zlen b /\ chain b (p + size_at b p) h).
Proof. intros H. inversion H; subst; auto 8. Qed.
Lemma chain_trans b p q r : chain b p q -> chain b q r -> chain b p r.
Proof. induction 1; auto. intros. constructor; auto. Qed.
Lemma chain_det b p q : chain b p q -> forall r, chain b p r -> q <= r -> chain b q r.
Proof.
  induction 1 as [p|p q H1 H2 H3 H4 H5 IH]; intros r Hr Hle; [assumption|].
  inversion Hr as [p'|p' h' G1 G2 G3 G4 G5]; subst.
  - apply chain_le in H5. lia.
  - apply IH; assumption.
Qed.
Lemma scan_chain fuel : forall b h, bytes b -> 0 <= h <= zlen b -> zlen b < 4294967296 ->
  zlen b - h < Z.of_nat fuel ->
  exists h', scan fuel b h = Ok h' /\ h <= h' <= zlen b /\ chain b h h' .
Proof.
  induction fuel as [|fuel IH]; intros b h Hb Hh Hs Hf; [lia|]. cbn [scan].
  destruct (Z.leb_spec (h + HDR) (zlen b)) as [H|H].
  2:{ exists h. split; [reflexivity|]. split; [lia|constructor]. }
  unfold HDR in H. rewrite node_size_at by lia. cbn [bind]. pose proof (size_at_range b h Hb) as Hsz.
  destruct (Z.eqb_spec (size_at b h) 0) as [E|E].
  { exists h. split; [reflexivity|]. split; [lia|constructor]. }
  destruct (Z.leb_spec (h + size_at b h) (zlen b)) as [H1|H1].
  2:{ exists h. split; [reflexivity|]. split; [lia|constructor]. }
  rewrite u32_small by lia.
  destruct (IH b (h + size_at b h)) as (h' & E' & Hr & Hc); try assumption; try lia.
  exists h'. split; [assumption|]. split; [lia|]. constructor; try assumption; lia.
Qed.
Lemma open_any fuel b : bytes b -> zlen b < 4294967296 -> (length b < fuel)%nat ->
  exists h, ctor_open fuel b = Ok (mkst b h) /\ 0 <= h <= zlen b /\ chain b 0 h.
Proof.
  intros Hb Hs Hf. unfold ctor_open. pose proof (zlen_nonneg b).
  destruct (scan_chain fuel b 0 Hb ltac:(lia) Hs ltac:(unfold zlen; lia)) as (h & E & Hr & Hc).
  exists h. rewrite E. cbn [bind]. auto.
Qed.

Lemma getIdx_chain fuel : forall b p h name n, bytes b -> 0 <= p -> h <= zlen b -> zlen b < 4294967296 ->
  chain b p h -> h - p < Z.of_nat fuel ->
  exists r, getIdx fuel b h name n p = Ok r /\
    (forall q, r = Some q -> chain b p q /\ q + 6 <= h /\ size_at b q = 6 + n /\ chain b (q + 6 + n) h /\ 0 < 6 + n /\
        exists ix, node_idx b q = Ok ix /\ idx_eq ix name = true).
Proof.
  induction fuel as [|fuel IH]; intros b p h name n Hb Hp Hh Hs Hc Hf; [apply chain_le in Hc; lia|]. cbn [getIdx].
  destruct (Z.leb_spec (p + HDR) h) as [H|H].
  2:{ exists None. split; [reflexivity|discriminate]. }
  unfold HDR in H. inversion Hc as [p'|p' h' G1 G2 G3 G4 G5]; subst; [lia|].
  unfold node_idx at 1. rewrite rd_slice_ok by lia. cbn [bind]. rewrite node_size_at by lia. cbn [bind].
  destruct (idx_eq (slice b (p + 2) 4) name && (size_at b p =? HDR + n)) eqn:E.
  - exists (Some p). split; [reflexivity|]. intros q Hq. injection Hq as <-.
    apply andb_true_iff in E. destruct E as [E1 E2]. apply Z.eqb_eq in E2. unfold HDR in E2.
    split; [constructor|]. split; [assumption|]. split; [assumption|]. split; [|split].
    + replace (p + 6 + n) with (p + size_at b p) by lia. assumption.
    + lia.
    + exists (slice b (p + 2) 4). split; [|assumption]. unfold node_idx. apply rd_slice_ok; lia.
  - rewrite u32_small by lia. destruct (IH b (p + size_at b p) h name n) as (r & Er & Hr); try assumption; try lia.
    exists r. split; [assumption|]. intros q Hq. destruct (Hr q Hq) as (A & B). split; [|assumption].
    constructor; assumption.
Qed.

(** well-formed-enough states over arbitrary bytes *)
Definition weak (s : st) : Prop :=
  bytes (buf s) /\ zlen (buf s) < 4294967296 /\ head s <= zlen (buf s) /\ chain (buf s) 0 (head s).
Definition safe (s : st) : Prop := weak s /\ ~ ends_in_one_byte_record (buf s) (head s).

Lemma weak_get fuel s name n : weak s -> enough fuel (buf s) -> 0 <= n -> exists r, get fuel s name n = Ok r.
Proof.
  intros (Hb & Hs & Hh & Hc) He Hn. unfold get.
  destruct (getIdx_chain fuel (buf s) 0 (head s) name n) as (r & E & Hr); try assumption; try lia.
  { unfold enough in He. unfold zlen in Hh. lia. }
  rewrite E. cbn [bind]. destruct r as [q|]; [|eexists; reflexivity].
  destruct (Hr q eq_refl) as (C1 & H6 & Hsz & C2 & _ & ix & Hix & Hm). rewrite Hix. cbn [bind].
  pose proof (chain_le _ _ _ C1). pose proof (chain_le _ _ _ C2).
  rewrite node_size_at by lia. cbn [bind]. rewrite Hm, Hsz, Z.eqb_refl. cbn [andb].
  rewrite rd_slice_ok by (unfold HDR; lia). eexists. reflexivity.
Qed.

Lemma size_at_ext b b' p : nthZ b' p = nthZ b p -> nthZ b' (p + 1) = nthZ b (p + 1) -> size_at b' p = size_at b p.
Proof. unfold size_at. congruence. Qed.

Lemma chain_transfer b b' p h : zlen b' = zlen b -> chain b p h ->
  (forall q, chain b p q -> q < h -> size_at b' q = size_at b q) -> chain b' p h.
Proof.
  intros Hl Hc. induction Hc as [p|p h H1 H2 H3 H4 H5 IH]; intros Hs; [constructor|].
  assert (E : size_at b' p = size_at b p) by (apply Hs; [constructor|apply chain_le in H5; lia]).
  constructor; rewrite ?E, ?Hl; try assumption. apply IH. intros q Hq Hlt. apply Hs; [|assumption].
  constructor; assumption.
Qed.

Lemma safe_set fuel s name obj : safe s -> enough fuel (buf s) -> bytes name -> bytes obj -> zlen obj <= 65529 ->
  exists r s', set fuel s name obj = Ok (r, s') /\ safe s' /\ zlen (buf s') = zlen (buf s).
Proof.
  intros ((Hb & Hs & Hh & Hc) & Hne) He Hbn Hbo Ho. unfold set, set_plan.
  pose proof (zlen_nonneg obj) as Hon. pose proof (chain_le _ _ _ Hc) as Hh0.
  destruct (getIdx_chain fuel (buf s) 0 (head s) name (zlen obj)) as (r & E & Hr); try assumption; try lia.
  { unfold enough in He. unfold zlen in Hh. lia. }
  rewrite E. cbn [bind]. destruct r as [q|].
  - destruct (Hr q eq_refl) as (C1 & H6 & Hsz & C2 & _). clear Hr.
    pose proof (chain_le _ _ _ C1). pose proof (chain_le _ _ _ C2). cbn [bind apply_stores w_off w_data]. unfold HDR.
    rewrite wr_slice_ok by lia. cbn [bind]. set (b' := blit (buf s) (q + 6) obj).
    assert (Hl : zlen b' = zlen (buf s)) by (apply zlen_blit; lia).
    assert (Hout : forall i, 0 <= i -> i < q + 6 \/ q + 6 + zlen obj <= i -> nthZ b' i = nthZ (buf s) i).
    { intros i Hi Ho'. unfold b'. rewrite nthZ_blit by lia.
      replace ((q + 6 <=? i) && (i <? q + 6 + zlen obj)) with false by lia. reflexivity. }
    assert (T1 : chain b' 0 q).
    { apply chain_transfer with (buf s); try assumption. intros x Hx Hlt. apply chain_le in Hx.
      apply size_at_ext; apply Hout; lia. }
    assert (Eq : size_at b' q = 6 + zlen obj) by (rewrite <- Hsz; apply size_at_ext; apply Hout; lia).
    assert (T2 : chain b' (q + 6 + zlen obj) (head s)).
    { apply chain_transfer with (buf s); try assumption. intros x Hx Hlt. apply chain_le in Hx.
      apply size_at_ext; apply Hout; lia. }
    assert (T3 : chain b' 0 (head s)).
    { apply chain_trans with q; [assumption|]. constructor; rewrite ?Eq, ?Hl; try lia.
      replace (q + (6 + zlen obj)) with (q + 6 + zlen obj) by lia. assumption. }
    eexists _, _. split; [reflexivity|]. cbn [buf head]. split; [|assumption].
    split; [split; [|split; [|split]]; cbn [buf head]|].
    + apply bytes_blit; assumption.
    + lia.
    + lia.
    + assumption.
    + cbn [buf head]. intros (D1 & D2 & D3). apply Hne.
      pose proof (chain_det _ _ _ T1 _ D1 ltac:(lia)) as D4.
      inversion D4 as [p'|p' h' G1 G2 G3 G4 G5]; subst; [lia|].
      rewrite Eq in G5. pose proof (chain_le _ _ _ G5) as G6.
      assert (D5 : chain (buf s) (q + (6 + zlen obj)) (head s - 1)).
      { apply chain_transfer with b'; [lia|assumption|]. intros x Hx Hlt. apply chain_le in Hx.
        symmetry. apply size_at_ext; apply Hout; lia. }
      split; [|split; [assumption|]].
      * apply chain_trans with q; [assumption|]. constructor; rewrite ?Hsz; try lia. assumption.
      * transitivity (size_at b' (head s - 1)); [|assumption]. symmetry. apply size_at_ext; apply Hout; lia.
  - clear Hr. destruct (Z.ltb_spec (zlen (buf s)) (head s + (HDR + zlen obj))) as [H|H].
    { cbn [bind]. eexists _, _. split; [reflexivity|]. split; [|reflexivity]. split; [|assumption].
      split; [assumption|]. auto. }
    unfold HDR in H. cbn [bind].
    destruct (split_at (buf s) (head s)) as (a & t & Eb & Ha); [lia|].
    assert (Hbt : zlen (buf s) = zlen a + zlen t) by (rewrite Eb, zlen_app; reflexivity).
    destruct (apply_append a t name obj Ho) as (t1 & c & Et & Ht1 & W); [lia|].
    rewrite <- Eb in W. rewrite <- Ha. rewrite W. cbn [bind]. rewrite u32_small by (unfold HDR; lia).
    set (b' := a ++ enc (pad4 name, obj) ++ c).
    assert (Hle : zlen (enc (pad4 name, obj)) = 6 + zlen obj) by (apply (zlen_enc (pad4 name, obj)), pad4_len).
    assert (Hl : zlen b' = zlen (buf s)) by (unfold b'; rewrite Eb, Et, !zlen_app; lia).
    assert (Hpre : forall i, 0 <= i < zlen a -> nthZ b' i = nthZ (buf s) i).
    { intros i Hi. unfold b'. rewrite Eb, !nthZ_app1 by lia. reflexivity. }
    assert (Esz : size_at b' (zlen a) = 6 + zlen obj).
    { pose proof (node_size_enc a (pad4 name, obj) c (zlen a)) as N. rewrite node_size_at in N.
      - assert (N' : Ok (size_at b' (zlen a)) = Ok (6 + zlen obj)); [|congruence].
        apply N; [|reflexivity]. split; [apply pad4_len|cbn [snd]; lia].
      - apply zlen_nonneg.
      - fold b'. lia. }
    assert (T1 : chain b' 0 (zlen a)).
    { apply chain_transfer with (buf s); [assumption|rewrite Ha; assumption|]. intros x Hx Hlt.
      pose proof (chain_le _ _ _ Hx). destruct (Z.eq_dec (x + 1) (zlen a)) as [E1|E1].
      - exfalso. apply Hne. unfold ends_in_one_byte_record. rewrite <- Ha. replace (zlen a - 1) with x by lia. split; [assumption|]. split; [lia|].
        assert (D : chain (buf s) x (head s)) by (apply chain_det with 0; [assumption|assumption|lia]).
        inversion D as [p'|p' h' G1 G2 G3 G4 G5]; subst; [lia|]. apply chain_le in G5. lia.
      - apply size_at_ext; apply Hpre; lia. }
    assert (T2 : chain b' 0 (zlen a + (HDR + zlen obj))).
    { apply chain_trans with (zlen a); [assumption|]. constructor; rewrite ?Esz, ?Hl; try lia.
      constructor. }
    eexists _, _. split; [reflexivity|]. cbn [buf head]. split; [|assumption].
    split; [split; [|split; [|split]]; cbn [buf head]|].
    + rewrite Eb in Hb. apply bytes_app in Hb. destruct Hb as [Hb1 Hb2]. rewrite Et in Hb2. apply bytes_app in Hb2.
      unfold b', enc. rewrite !bytes_app. cbn [fst snd].
      split; [assumption|]. split; [|apply Hb2]. split; [|split; [|assumption]].
      * unfold bytes, is_byte. pose proof (Z.mod_pos_bound (6 + zlen obj) 256).
        apply Forall_cons; [lia|]. apply Forall_cons; [|constructor].
        split; [apply Z.div_pos; lia|]. apply Z.div_lt_upper_bound; lia.
      * apply bytes_firstn. rewrite bytes_app. split; [assumption|]. exact (bytes_repeat0 4).
    + lia.
    + unfold HDR. lia.
    + assumption.
    + cbn [buf head]. intros (D1 & D2 & D3). unfold HDR in *.
      pose proof (chain_det _ _ _ T1 _ D1 ltac:(lia)) as D4.
      apply chain_inv in D4. destruct D4 as [D4|(G1 & G2 & G3 & G4 & G5)]; [lia|]. apply chain_le in G5. lia.
Qed.

Lemma weak_exec_get fuel ops : forall s, weak s -> enough fuel (buf s) -> Forall op_ok ops -> Forall is_get ops ->
  exists l, exec fuel s ops = Ok (l, s).
Proof.
  induction ops as [|o ops IH]; intros s Hw He Ho Hg; [exists []; reflexivity|].
  inversion_clear Ho as [|? ? Ho1 Ho2]. inversion_clear Hg as [|? ? Hg1 Hg2].
  destruct o as [|name n|]; try contradiction. destruct (weak_get fuel s name n Hw He) as (r & E); [apply Ho1|].
  destruct (IH s Hw He Ho2 Hg2) as (l & El). exists (AOpt r :: l). cbn [exec step]. rewrite E. cbn [bind].
  rewrite El. reflexivity.
Qed.
Lemma safe_exec fuel ops : forall s, safe s -> enough fuel (buf s) -> Forall op_ok ops -> Forall not_reopen ops ->
  exists l s', exec fuel s ops = Ok (l, s').
Proof.
  induction ops as [|o ops IH]; intros s Hw He Ho Hg; [exists [], s; reflexivity|].
  inversion_clear Ho as [|? ? Ho1 Ho2]. inversion_clear Hg as [|? ? Hg1 Hg2].
  destruct o as [name obj|name n|]; try contradiction.
  - destruct Ho1 as (B1 & B2 & B3). destruct (safe_set fuel s name obj Hw He B1 B2 B3) as (r & s1 & E & Hs1 & Hl).
    destruct (IH s1 Hs1 ltac:(eapply enough_len; eassumption) Ho2 Hg2) as (l & s2 & El).
    exists (ABool r :: l), s2. cbn [exec step]. rewrite E. cbn [bind]. rewrite El. reflexivity.
  - destruct (weak_get fuel s name n (proj1 Hw) He) as (r & E); [apply Ho1|].
    destruct (IH s Hw He Ho2 Hg2) as (l & s2 & El). exists (AOpt r :: l), s2. cbn [exec step]. rewrite E. cbn [bind].
    rewrite El. reflexivity.
Qed.
Lemma open_arbitrary fuel b : bytes b -> zlen b < 4294967296 -> (length b < fuel)%nat ->
  exists h, ctor_open fuel b = Ok (mkst b h) /\ 0 <= h <= zlen b /\
    (forall ops, Forall op_ok ops -> Forall is_get ops -> exists l, exec fuel (mkst b h) ops = Ok (l, mkst b h)) /\
    (~ ends_in_one_byte_record b h -> forall ops, Forall op_ok ops -> Forall not_reopen ops ->
       exists l s', exec fuel (mkst b h) ops = Ok (l, s')).
Proof.
  intros Hb Hs Hf. destruct (open_any fuel b Hb Hs Hf) as (h & E & Hh & Hc). exists h.
  assert (Hw : weak (mkst b h)) by (split; [|split; [|split]]; cbn [buf head]; auto; lia).
  split; [assumption|]. split; [assumption|]. split.
  - intros ops Ho Hg. apply weak_exec_get; assumption.
  - intros Hne ops Ho Hg. apply safe_exec; try assumption. split; assumption.
Qed.

(** ** Crash with an arbitrary subset of the pending bytes *)
Lemma crash_any_others fuel s name obj s' b' :
  reachable fuel s -> zlen obj <= 65529 ->
  set fuel s name obj = Ok (true, s') -> crash_any (buf s) (buf s') b' -> bytes b' ->
  exists s'', ctor_open fuel b' = Ok s'' /\
    forall name2 n2 v, (zlen name <= 4 -> (pad4 name2, n2) <> (pad4 name, zlen obj)) ->
      get fuel s name2 n2 = Ok (Some v) -> get fuel s'' name2 n2 = Ok (Some v).
Proof.
  intros HR Ho Hset Hcr Hb. apply reachable_rep in HR. destruct HR as (rs & HR & He).
  assert (Hlen : zlen b' = zlen (buf s)) by apply Hcr.
  assert (Hbs : zlen (buf s) < 4294967296) by (destruct HR as (t & _ & _ & _ & _ & H); exact H).
  unfold set, set_plan in Hset.
  destruct (getIdx_rep fuel s rs name (zlen obj) HR He) as [(r1 & r & r2 & E & Hmt & Hnm & Hl & G)|(Hnm & Hl & G)];
    rewrite G in Hset; cbn [bind apply_stores w_off w_data] in Hset.
  - destruct HR as (t & Eb & Eh & Hok & Ht & Hs).
    assert (Hok' := Hok). rewrite E in Hok'. apply Forall_app in Hok'. destruct Hok' as [Hok1 Hok2].
    inversion_clear Hok2 as [|? ? Hr Hok3].
    assert (Hod : zlen obj = zlen (snd r)).
    { unfold rmatch in Hmt. rewrite !andb_true_iff, Z.eqb_eq in Hmt. symmetry. apply Hmt. }
    assert (Eb2 : buf s = encs r1 ++ enc r ++ (encs r2 ++ t)).
    { rewrite Eb, E, encs_app, encs_cons, <- !app_assoc. reflexivity. }
    rewrite Eb2, wr_data_enc in Hset by assumption. cbn [bind] in Hset. apply Ok_inj, (f_equal snd) in Hset; cbn [snd] in Hset; subst s'. cbn [buf] in Hcr.
    destruct r as [k d]. cbn [fst snd] in *. rewrite Eb2 in Hcr. unfold crash_any in Hcr.
    rewrite (enc_mid k d), (enc_mid k obj), <- Hod in Hcr. apply mix_mid in Hcr; [|auto].
    destruct Hcr as (v & -> & Hmx). assert (Hvl : zlen v = zlen obj) by (destruct Hmx as (H1 & _); lia).
    assert (Eu : upd name v rs = r1 ++ (k, v) :: r2).
    { rewrite E. change (k, v) with (fst (k, d), v). apply upd_first; rewrite Hvl; assumption. }
    replace ((encs r1 ++ [(6 + zlen obj) mod 256; (6 + zlen obj) / 256] ++ k) ++ v ++ encs r2 ++ t)
      with (encs r1 ++ enc (k, v) ++ encs r2 ++ t) in * by (rewrite enc_mid, Hvl; reflexivity).
    assert (HR' : Rep (mkst (encs r1 ++ enc (k, v) ++ encs r2 ++ t) (head s)) (upd name v rs)).
    { exists t. cbn [buf head]. rewrite encs_upd_len. rewrite Eu, encs_app, encs_cons, <- !app_assoc.
      split; [reflexivity|]. split; [assumption|]. split.
      - apply Forall_app. split; [assumption|]. constructor; [|assumption]. split; [apply Hr|cbn [snd]; lia].
      - split; [assumption|]. lia. }
    assert (He' : enough fuel (encs r1 ++ enc (k, v) ++ encs r2 ++ t)) by (eapply enough_len; eassumption).
    eexists. split; [apply (open_rep fuel _ _ HR'); assumption|].
    intros name2 n2 w Hne Hg. rewrite (get_rep fuel s rs) in Hg by (try assumption; exists t; auto 6).
    assert (Hn : zlen name <= 4) by (unfold rmatch in Hmt; rewrite !andb_true_iff, Z.leb_le in Hmt; apply Hmt).
    specialize (Hne Hn).
    rewrite (get_rep fuel _ _ _ _ HR') by assumption.
    destruct (Z.le_gt_cases (zlen name2) 4) as [H2|H2];
      [|rewrite lookup_long in Hg by lia; discriminate].
    assert (Hlk : lookup rs name (zlen v) = Some d) by (rewrite Hvl; assumption).
    rewrite lookup_pad in Hg |- * by assumption.
    rewrite (lookup_upd _ _ _ _ Hn Hlk) by apply pad4_len.
    destruct (eqbl (pad4 name2) (pad4 name) && (n2 =? zlen v)) eqn:Ek; [|assumption].
    exfalso. apply Hne. apply andb_true_iff in Ek. destruct Ek as [K1 K2]. apply eqbl_spec in K1. apply Z.eqb_eq in K2.
    rewrite K1, K2, Hvl. reflexivity.
  - destruct (zlen (buf s) <? head s + (HDR + zlen obj)) eqn:Efull; [discriminate|].
    apply Z.ltb_ge in Efull. cbn [bind] in Hset.
    assert (HR0 := HR). destruct HR as (t & Eb & Eh & Hok & Ht & Hs).
    rewrite Eb, Eh in Hset, Efull. rewrite zlen_app in Efull. unfold HDR in Efull.
    destruct (apply_append (encs rs) t name obj Ho ltac:(lia)) as (t1 & c & Et & Ht1 & W).
    rewrite W in Hset. cbn [bind] in Hset. apply Ok_inj, (f_equal snd) in Hset; cbn [snd] in Hset; subst s'. cbn [buf] in Hcr.
    assert (Hx : exists t', b' = encs rs ++ t').
    { unfold crash_any in Hcr. rewrite Eb, Et in Hcr.
      assert (Hle : zlen (enc (pad4 name, obj)) = 6 + zlen obj) by (apply (zlen_enc (pad4 name, obj)), pad4_len).
      apply mix_mid in Hcr; [|lia]. destruct Hcr as (z & -> & _). eexists. reflexivity. }
    destruct Hx as (t' & ->).
    pose proof (enough_recs fuel rs t Hok ltac:(rewrite <- Eb; assumption)) as Hfr.
    assert (He' : enough fuel (encs rs ++ t')) by (eapply enough_len; eassumption).
    pose proof (zlen_nonneg (encs rs)). pose proof (zlen_nonneg t').
    pose proof (scan_recs rs [] t' fuel Hok) as Sc. cbn [app encs map concat] in Sc. change (zlen []) with 0 in Sc.
    fold (encs rs) in Sc.
    destruct (scan_chain (fuel - length rs) (encs rs ++ t') (zlen (encs rs))) as (h' & Eh' & Hh' & _); try assumption; try lia.
    { rewrite zlen_app. lia. }
    { pose proof (encs_len_ge rs Hok). unfold enough in He'. rewrite zlen_app. rewrite app_length in He'. unfold zlen in *. lia. }
    exists (mkst (encs rs ++ t') h'). split.
    { unfold ctor_open. rewrite Sc by lia. rewrite Eh'. reflexivity. }
    intros name2 n2 w Hne Hg. rewrite (get_rep fuel s rs) in Hg by assumption. injection Hg as Hg.
    destruct (first_match name2 n2 rs) as [(q1 & q & q2 & E & Hm & Hq & Hlk)|[_ Hlk]]; [|congruence].
    assert (w = snd q) by congruence. subst w.
    assert (Hok' := Hok). rewrite E in Hok'. apply Forall_app in Hok'. destruct Hok' as [Hok1 Hok2].
    inversion_clear Hok2 as [|? ? Hqok Hok3].
    assert (E2 : encs rs ++ t' = encs [] ++ encs q1 ++ enc q ++ encs q2 ++ t').
    { rewrite E, encs_app, encs_cons, <- !app_assoc. reflexivity. }
    assert (E3 : zlen (encs rs) = zlen (encs q1) + zlen (enc q) + zlen (encs q2)).
    { rewrite E, encs_app, encs_cons, !zlen_app. lia. }
    pose proof (zlen_nonneg (encs q2)).
    unfold get. cbn [buf head].
    assert (G2 : getIdx fuel (encs rs ++ t') h' name2 n2 0 = Ok (Some (zlen (encs q1)))).
    { rewrite E2. apply (getIdx_hit name2 n2 h' q1 [] q q2 t' fuel Hok1 Hqok Hq Hm).
      - change (encs []) with (@nil Z). cbn [app]. rewrite zlen_app. lia.
      - rewrite <- E2. lia.
      - rewrite <- E2. lia.
      - rewrite E, app_length in Hfr. lia. }
    rewrite G2. cbn [bind]. rewrite E2. change (encs []) with (@nil Z). cbn [app].
    rewrite node_idx_enc by auto. cbn [bind]. rewrite node_size_enc by auto. cbn [bind].
    rewrite match_code by apply Hqok. rewrite Hm. rewrite node_data_enc; auto.
    unfold rmatch in Hm. rewrite !andb_true_iff, Z.eqb_eq in Hm. symmetry. apply Hm.
Qed.

(** ** Records of 65536 bytes or more *)
Lemma big_never_found fuel : forall b hd name n pos, bytes b -> hd <= zlen b -> 0 <= pos -> 65530 <= n ->
  getIdx fuel b hd name n pos = Ok None \/ getIdx fuel b hd name n pos = Fuel.
Proof.
  induction fuel as [|fuel IH]; intros b hd name n pos Hb Hh Hp Hn; [right; reflexivity|]. cbn [getIdx].
  destruct (Z.leb_spec (pos + HDR) hd) as [H|H]; [|left; reflexivity]. unfold HDR in H.
  unfold node_idx. rewrite rd_slice_ok by lia. cbn [bind]. rewrite node_size_at by lia. cbn [bind].
  pose proof (size_at_range b pos Hb) as Hsz.
  replace (size_at b pos =? HDR + n) with false by (unfold HDR; lia). rewrite andb_false_r.
  apply IH; auto. unfold u32. pose proof (Z.mod_pos_bound (pos + size_at b pos) 4294967296). lia.
Qed.
Lemma big_get fuel s name n : bytes (buf s) -> head s <= zlen (buf s) -> 65530 <= n ->
  get fuel s name n = Ok None \/ get fuel s name n = Fuel.
Proof.
  intros Hb Hh Hn. unfold get.
  destruct (big_never_found fuel (buf s) (head s) name n 0 Hb Hh ltac:(lia) Hn) as [E|E]; rewrite E; auto.
Qed.

Lemma getIdx_skip name n hd : forall r2 r1 c fuel,
  Forall rec_ok r2 -> Forall (fun x => rmatch name n x = false) r2 ->
  let b := encs r1 ++ encs r2 ++ c in
  zlen (encs r1 ++ encs r2) <= hd -> zlen b < 4294967296 ->
  getIdx fuel b hd name n (zlen (encs r1)) = Fuel \/
  exists f, getIdx fuel b hd name n (zlen (encs r1)) = getIdx f b hd name n (zlen (encs r1 ++ encs r2)).
Proof.
  induction r2 as [|q r2 IH]; intros r1 c fuel H2 Hm b Hhd Hbs.
  - right. exists fuel. change (encs []) with (@nil Z). rewrite app_nil_r. reflexivity.
  - destruct fuel as [|fuel]; [left; reflexivity|].
    inversion_clear H2 as [|? ? Hq H2']. inversion_clear Hm as [|? ? Hmq Hm'].
    assert (Hl : zlen (encs r1 ++ encs (q :: r2)) = zlen (encs r1) + (6 + zlen (snd q)) + zlen (encs r2)).
    { rewrite encs_cons, !zlen_app, !zlen_enc by apply Hq. lia. }
    pose proof (zlen_nonneg (snd q)).
    pose proof (zlen_nonneg (encs r1)). pose proof (zlen_nonneg (encs r2)). pose proof (zlen_nonneg c).
    assert (Hlb : zlen b = zlen (encs r1) + (6 + zlen (snd q)) + zlen (encs r2) + zlen c).
    { subst b. rewrite app_assoc, zlen_app, Hl. lia. }
    cbn [getIdx]. replace (zlen (encs r1) + HDR <=? hd) with true by (unfold HDR; lia).
    assert (Eb : b = encs (r1 ++ [q]) ++ encs r2 ++ c).
    { subst b. rewrite encs_app, !encs_cons. change (encs []) with (@nil Z). rewrite app_nil_r, <- !app_assoc. reflexivity. }
    assert (E1 : b = encs r1 ++ enc q ++ (encs r2 ++ c)).
    { subst b. rewrite encs_cons, <- !app_assoc. reflexivity. }
    assert (En : node_idx b (zlen (encs r1)) = Ok (fst q)) by (rewrite E1; apply node_idx_enc; auto).
    assert (Es : node_size b (zlen (encs r1)) = Ok (6 + zlen (snd q))) by (rewrite E1; apply node_size_enc; auto).
    rewrite En. cbn [bind]. rewrite Es. cbn [bind].
    rewrite match_code by apply Hq. rewrite Hmq. rewrite u32_small by lia.
    assert (Hq1 : zlen (encs (r1 ++ [q])) = zlen (encs r1) + (6 + zlen (snd q))).
    { rewrite encs_app, zlen_app, encs_cons, zlen_app, zlen_enc by apply Hq. change (zlen (encs [])) with 0. lia. }
    rewrite <- Hq1.
    replace (zlen (encs r1 ++ encs (q :: r2))) with (zlen (encs (r1 ++ [q]) ++ encs r2))
      by (rewrite Hl, zlen_app, Hq1; lia).
    rewrite Eb. apply IH; auto.
    + rewrite zlen_app, Hq1. lia.
    + rewrite <- Eb. assumption.
Qed.
Lemma getIdx_stuck name n hd b p : 0 <= n -> 0 <= p -> p + 6 <= hd -> hd <= zlen b -> zlen b < 4294967296 ->
  size_at b p = 0 -> forall fuel, getIdx fuel b hd name n p = Fuel.
Proof.
  intros Hn Hp Hh Hl Hs Hz. induction fuel as [|fuel IH]; [reflexivity|]. cbn [getIdx].
  replace (p + HDR <=? hd) with true by (unfold HDR; lia).
  unfold node_idx. rewrite rd_slice_ok by lia. cbn [bind]. rewrite node_size_at by lia. cbn [bind].
  rewrite Hz. replace (0 =? HDR + n) with false by (unfold HDR; lia). rewrite andb_false_r, Z.add_0_r.
  rewrite u32_small by lia. exact IH.
Qed.

Lemma big_set fuel s name obj : reachable fuel s -> 65530 <= zlen obj ->
  head s + 6 + zlen obj <= zlen (buf s) ->
  exists s', set fuel s name obj = Ok (true, s') /\
    size_at (buf s') (head s) = (6 + zlen obj) mod 65536 /\ head s' = head s + 6 + zlen obj /\
    zlen (buf s') = zlen (buf s) /\
    ((6 + zlen obj) mod 65536 = 0 ->
       forall name2 n2, 0 <= n2 -> get fuel s name2 n2 = Ok None -> forall fuel', get fuel' s' name2 n2 = Fuel).
Proof.
  intros HR Ho Hfit. apply reachable_rep in HR. destruct HR as (rs & HR & He).
  assert (Hnone : forall nm, lookup rs nm (zlen obj) = None).
  { intros nm. destruct HR as (t & _ & _ & Hok & _). clear - Hok Ho. induction Hok as [|r rs [_ Hr] Hok IH]; [reflexivity|].
    cbn [lookup]. unfold rmatch. replace (zlen (snd r) =? zlen obj) with false by lia. rewrite andb_false_r. exact IH. }
  unfold set, set_plan.
  destruct (getIdx_rep fuel s rs name (zlen obj) HR He) as [(r1 & r & r2 & E & Hmt & Hnm & Hl & G)|(Hnm & Hl & G)];
    [rewrite Hnone in Hl; discriminate|].
  rewrite G. cbn [bind]. unfold HDR.
  replace (zlen (buf s) <? head s + (6 + zlen obj)) with false by lia. cbn [bind].
  assert (HR0 := HR). destruct HR as (t & Eb & Eh & Hok & Ht & Hs).
  assert (Hlt : zlen (buf s) = zlen (encs rs) + zlen t) by (rewrite Eb, zlen_app; reflexivity).
  pose proof (zlen_nonneg (encs rs)) as Hrs0.
  destruct (tail_split t (zlen obj)) as (h & k & d & c & Et & Hh & Hk & Hd); try lia.
  set (sb := size_bytes (6 + zlen obj)).
  assert (W : apply_stores (buf s) [mkstore (zlen (encs rs) + 2) (idx_bytes name) false;
                         mkstore (zlen (encs rs)) sb true; mkstore (zlen (encs rs) + 6) obj false]
              = Ok ((encs rs ++ sb ++ idx_bytes name) ++ obj ++ c)).
  { rewrite Eb, Et. cbn [apply_stores w_off w_data].
    replace (encs rs ++ h ++ k ++ d ++ c) with ((encs rs ++ h) ++ k ++ (d ++ c)) by (rewrite <- !app_assoc; reflexivity).
    rewrite (wr_slice_mid (encs rs ++ h) k (idx_bytes name)); [|rewrite zlen_app; lia|rewrite idx_bytes_len; lia].
    cbn [bind].
    replace ((encs rs ++ h) ++ idx_bytes name ++ d ++ c) with (encs rs ++ h ++ (idx_bytes name ++ d ++ c)) by (rewrite <- !app_assoc; reflexivity).
    rewrite (wr_slice_mid (encs rs) h sb) by (try reflexivity; symmetry; assumption).
    cbn [bind].
    replace (encs rs ++ sb ++ idx_bytes name ++ d ++ c) with ((encs rs ++ sb ++ idx_bytes name) ++ d ++ c) by (rewrite <- !app_assoc; reflexivity).
    rewrite (wr_slice_mid (encs rs ++ sb ++ idx_bytes name) d obj); [reflexivity| |auto].
    rewrite !zlen_app, idx_bytes_len. change (zlen sb) with 2. lia. }
  rewrite Eh. rewrite W. cbn [bind]. eexists. split; [reflexivity|]. cbn [buf head].
  set (b' := (encs rs ++ sb ++ idx_bytes name) ++ obj ++ c).
  assert (Eb' : b' = encs rs ++ sb ++ (idx_bytes name ++ obj ++ c)) by (unfold b'; rewrite <- !app_assoc; reflexivity).
  assert (Hlb : zlen b' = zlen (buf s)).
  { rewrite Eb', Hlt, Et, !zlen_app, idx_bytes_len. change (zlen sb) with 2. lia. }
  assert (Hsz : size_at b' (zlen (encs rs)) = (6 + zlen obj) mod 65536).
  { unfold size_at. rewrite Eb', !(nthZ_app2 (encs rs)) by lia.
    replace (zlen (encs rs) - zlen (encs rs)) with 0 by lia.
    replace (zlen (encs rs) + 1 - zlen (encs rs)) with 1 by lia.
    rewrite !nthZ_app1 by (change (zlen sb) with 2; lia).
    unfold sb, size_bytes, u16. set (x := (6 + zlen obj) mod 65536).
    change (x mod 256 + 256 * (x / 256) = x). pose proof (Z.div_mod x 256). lia. }
  split; [assumption|]. split; [rewrite u32_small; lia|]. split; [assumption|].
  intros Hz name2 n2 Hn2 Hg fuel'. rewrite (get_rep fuel s rs) in Hg by assumption. assert (Hg' : lookup rs name2 n2 = None) by congruence.
  destruct (first_match name2 n2 rs) as [(q1 & q & q2 & E & Hm & Hq & Hlk)|[Hall _]]; [congruence|].
  unfold get. cbn [buf head].
  assert (St : forall f, getIdx f b' (u32 (zlen (encs rs) + (6 + zlen obj))) name2 n2 (zlen (encs rs)) = Fuel).
  { intros f. rewrite u32_small by lia. apply getIdx_stuck; try lia. }
  pose proof (getIdx_skip name2 n2 (u32 (zlen (encs rs) + (6 + zlen obj))) rs [] (sb ++ (idx_bytes name ++ obj ++ c)) fuel' Hok Hall) as Sk.
  change (encs []) with (@nil Z) in Sk. cbn [app] in Sk. change (zlen []) with 0 in Sk. rewrite <- Eb' in Sk.
  destruct Sk as [E|(f & E)].
  - rewrite u32_small; lia.
  - lia.
  - rewrite E. reflexivity.
  - rewrite E, St. reflexivity.
Qed.

Lemma overwrite_space fuel s name obj v : reachable fuel s -> zlen obj <= 65529 ->
  get fuel s name (zlen obj) = Ok (Some v) ->
  exists s', set fuel s name obj = Ok (true, s') /\ head s' = head s.
Proof.
  intros HR Ho Hg. apply reachable_rep in HR. destruct HR as (rs & HR & He).
  rewrite (get_rep fuel s rs) in Hg by assumption. injection Hg as Hg.
  destruct (set_rep fuel s rs name obj HR He Ho) as (s' & E & HR' & _).
  unfold set_recs in *. rewrite Hg in *. cbn [fst snd] in *. exists s'. split; [assumption|].
  destruct HR as (t & _ & Eh & _). destruct HR' as (t' & _ & Eh' & _). rewrite Eh, Eh'. apply encs_upd_len.
Qed.

(** ** Concrete damage: a region whose chain ends in a one-byte record *)
Definition dmg_hang : list Z := 1 :: repeat 0 599.
Definition dmg_obj : list Z := repeat 0 507.
Lemma dmg_hangs : exists s s',
  bytes dmg_hang /\ ctor_open 1000 dmg_hang = Ok s /\ set 1000 s [97] dmg_obj = Ok (true, s') /\
  forall fuel, get fuel s' [98] 4 = Fuel.
Proof.
  destruct (ctor_open 1000 dmg_hang) as [s| |] eqn:E; [|vm_compute in E; discriminate|vm_compute in E; discriminate].
  destruct (set 1000 s [97] dmg_obj) as [[r s']| |] eqn:E2;
    [|vm_compute in E; injection E as <-; vm_compute in E2; discriminate|vm_compute in E; injection E as <-; vm_compute in E2; discriminate].
  exists s, s'. split.
  { unfold dmg_hang, bytes. constructor; [unfold is_byte; lia|]. apply bytes_repeat0. }
  split; [reflexivity|]. vm_compute in E. injection E as <-. vm_compute in E2. injection E2 as <- <-.
  split; [reflexivity|]. intros fuel. unfold get.
  match goal with |- bind (getIdx _ ?b ?h _ _ _) _ = _ => set (bb := b); set (hh := h) end.
  assert (St : forall f, getIdx f bb hh [98] 4 257 = Fuel).
  { apply getIdx_stuck; try (vm_compute; congruence); vm_compute; reflexivity. }
  destruct fuel as [|fuel]; [reflexivity|]. cbn [getIdx].
  replace (0 + HDR <=? hh) with true by reflexivity.
  replace (node_idx bb 0) with (Ok [2; 97; 0; 0]) by (vm_compute; reflexivity).
  replace (node_size bb 0) with (Ok 257) by (vm_compute; reflexivity). cbn [bind].
  replace (idx_eq [2; 97; 0; 0] [98] && (257 =? HDR + 4)) with false by reflexivity.
  replace (u32 (0 + 257)) with 257 by reflexivity. rewrite St. reflexivity.
Qed.
Definition dmg_oob : list Z := 1 :: repeat 0 513.
Definition dmg_obj2 : list Z := repeat 0 250 ++ [44; 1; 98; 0; 0; 0] ++ repeat 0 251.
Lemma dmg_out_of_bounds : exists s s',
  bytes dmg_oob /\ ctor_open 1000 dmg_oob = Ok s /\ set 1000 s [97] dmg_obj2 = Ok (true, s') /\
  get 1000 s' [98] 294 = UB /\ set 1000 s' [98] (repeat 7 294) = UB.
Proof.
  destruct (ctor_open 1000 dmg_oob) as [s| |] eqn:E; [|vm_compute in E; discriminate|vm_compute in E; discriminate].
  destruct (set 1000 s [97] dmg_obj2) as [[r s']| |] eqn:E2;
    [|vm_compute in E; injection E as <-; vm_compute in E2; discriminate|vm_compute in E; injection E as <-; vm_compute in E2; discriminate].
  exists s, s'. split.
  { unfold dmg_oob, bytes. constructor; [unfold is_byte; lia|]. apply bytes_repeat0. }
  split; [reflexivity|]. vm_compute in E. injection E as <-. vm_compute in E2. injection E2 as <- <-.
  split; [reflexivity|]. split; vm_compute; reflexivity.
Qed.

(** deciding [mix] on concrete lists *)
Fixpoint mixb (old new l : list Z) : bool :=
  match old, new, l with
  | [], [], [] => true
  | a :: old', b :: new', c :: l' => ((c =? a) || (c =? b)) && mixb old' new' l'
  | _, _, _ => false
  end.
Lemma mixb_mix old : forall new l, mixb old new l = true -> mix old new l.
Proof.
  induction old as [|a old IH]; intros [|b new] [|c l] H; try discriminate.
  - repeat split. intros i Hi. change (zlen []) with 0 in Hi. lia.
  - cbn [mixb] in H. apply andb_true_iff in H. destruct H as [H1 H2]. destruct (IH _ _ H2) as (L1 & L2 & H3).
    split; [rewrite !zlen_cons; lia|]. split; [rewrite !zlen_cons; lia|]. intros i Hi. rewrite zlen_cons in Hi.
    rewrite !nthZ_cons by lia. destruct (Z.eqb_spec i 0); [|apply H3; lia].
    apply orb_true_iff in H1. rewrite !Z.eqb_eq in H1. tauto.
Qed.
