(** Histories with names of any length, with and without crashes. *)
From Verif Require Import Base M_Storage S_Storage L_Storage L_Storage2 L_Storage3.

Definition Holds (s : st) (m : rmap) : Prop :=
  exists rs, Rep s rs /\ r_cap m = zlen (buf s) /\ r_used m = zlen (encs rs) /\
             forall k n, zlen k = 4 -> r_map m k n = lookup rs k n.

Lemma holds_init b : zlen b < 4294967296 -> Holds (ctor_init b) (r_init (zlen b)).
Proof.
  intros H. exists []. split; [apply rep_init; assumption|]. repeat split. cbn. rewrite zlen_repeat. reflexivity.
Qed.
Lemma holds_get_any rs m name n : (forall k n, zlen k = 4 -> r_map m k n = lookup rs k n) -> any_get m name n = lookup rs name n.
Proof.
  intros Hm. unfold any_get. destruct (Z.leb_spec (zlen name) 4) as [H|H].
  - rewrite Hm by apply pad4_len. symmetry. apply lookup_pad. assumption.
  - symmetry. apply lookup_long. assumption.
Qed.
Lemma lookup_app_any rs m name v : (forall k n, zlen k = 4 -> r_map m k n = lookup rs k n) ->
  forall k n, zlen k = 4 -> r_map (any_add m name v) k n = lookup (rs ++ [(pad4 name, v)]) k n.
Proof.
  intros Hm k n Hk. unfold any_add. cbn [r_map]. rewrite Hm by apply pad4_len.
  destruct (lookup rs (pad4 name) (zlen v)) as [w|] eqn:E.
  - rewrite Hm by assumption. rewrite lookup_app. destruct (lookup rs k n) eqn:E2; [reflexivity|].
    cbn [lookup]. rewrite rmatch_key by assumption. cbn [fst snd].
    destruct (eqbl (pad4 name) k) eqn:E3; [|reflexivity]. apply eqbl_spec in E3. subst k.
    destruct (Z.eqb_spec (zlen v) n); [subst n; congruence|reflexivity].
  - unfold r_upd. rewrite lookup_app_new by assumption. rewrite Hm by assumption. reflexivity.
Qed.
Lemma encs_snoc rs k v : zlen k = 4 -> zlen (encs (rs ++ [(k, v)])) = zlen (encs rs) + 6 + zlen v.
Proof.
  intros Hk. rewrite encs_app, zlen_app. change (encs [(k, v)]) with (enc (k, v) ++ []).
  rewrite app_nil_r, (zlen_enc (k, v)) by exact Hk. cbn [snd]. lia.
Qed.
Lemma found_short rs name n v : lookup rs name n = Some v -> zlen name <= 4.
Proof. intros H. destruct (Z.leb_spec (zlen name) 4); [assumption|]. rewrite lookup_long in H by lia. discriminate. Qed.

Lemma holds_set fuel s m name obj : Holds s m -> enough fuel (buf s) -> zlen obj <= 65529 ->
  exists s', set fuel s name obj = Ok (fst (any_set m name obj), s') /\ Holds s' (snd (any_set m name obj)) /\
             zlen (buf s') = zlen (buf s).
Proof.
  intros (rs & HR & Hc & Hu & Hm) He Ho.
  destruct (set_rep fuel s rs name obj HR He Ho) as (s' & Hset & HR' & Hlen & _ & _).
  unfold any_set. rewrite (holds_get_any rs) by assumption. unfold set_recs in *.
  destruct (lookup rs name (zlen obj)) as [v|] eqn:El; cbn [fst snd] in *.
  - exists s'. split; [assumption|]. split; [|assumption]. exists (upd name obj rs). split; [assumption|].
    cbn [r_cap r_used r_map]. rewrite encs_upd_len. split; [lia|]. split; [lia|].
    intros k n Hk. unfold r_upd. rewrite (lookup_upd _ _ _ _ (found_short _ _ _ _ El) El) by assumption.
    rewrite Hm by assumption. reflexivity.
  - rewrite Hu, Hc. destruct (Z.leb_spec (zlen (encs rs) + 6 + zlen obj) (zlen (buf s)));
      destruct (Z.ltb_spec (zlen (buf s)) (zlen (encs rs) + 6 + zlen obj)); try lia; cbn [fst snd] in *;
      exists s'; (split; [assumption|]); (split; [|assumption]).
    + exists (rs ++ [(pad4 name, obj)]). split; [assumption|]. split; [cbn; lia|].
      split; [rewrite encs_snoc by apply pad4_len; cbn; lia|]. apply lookup_app_any. assumption.
    + exists rs. split; [assumption|]. split; [lia|]. split; [lia|]. assumption.
Qed.
Lemma holds_step fuel s m o : Holds s m -> enough fuel (buf s) -> op_ok o ->
  exists s', step fuel s o = Ok (fst (any_step m o), s') /\ Holds s' (snd (any_step m o)) /\ zlen (buf s') = zlen (buf s).
Proof.
  intros HS He Ho. destruct o as [name obj|name n|]; cbn [step any_step] in *.
  - destruct Ho as (_ & _ & Ho). destruct (holds_set fuel s m name obj HS He Ho) as (s' & Hset & HS' & Hl).
    exists s'. rewrite Hset. cbn [bind]. destruct (any_set m name obj) as [b m']. cbn [fst snd] in *. auto.
  - exists s. destruct HS as (rs & HR & Hc & Hu & Hm). rewrite (get_rep fuel s rs), (holds_get_any rs) by assumption.
    cbn [bind fst snd]. split; [reflexivity|]. split; [|reflexivity]. exists rs. auto.
  - exists s. destruct HS as (rs & HR & Hr). rewrite (open_rep fuel s rs) by assumption. cbn [bind fst snd].
    split; [reflexivity|]. split; [|reflexivity]. exists rs. auto.
Qed.
Lemma holds_exec fuel ops : forall s m, Holds s m -> enough fuel (buf s) -> Forall op_ok ops ->
  exists s', exec fuel s ops = Ok (fst (any_exec m ops), s').
Proof.
  induction ops as [|o ops IH]; intros s m HS He Ho.
  - exists s. reflexivity.
  - inversion_clear Ho as [|? ? Ho1 Ho2].
    destruct (holds_step fuel s m o HS He Ho1) as (s1 & E1 & HS1 & Hl1).
    cbn [exec any_exec]. rewrite E1. destruct (any_step m o) as [a m1]. cbn [fst snd bind] in *.
    destruct (IH s1 m1 HS1 ltac:(eapply enough_len; eassumption) Ho2) as (s2 & E2).
    exists s2. rewrite E2. destruct (any_exec m1 ops) as [l m2]. reflexivity.
Qed.
Lemma any_names fuel b0 ops : zlen b0 < 4294967296 -> (length b0 < fuel)%nat -> Forall op_ok ops ->
  exists s, exec fuel (ctor_init b0) ops = Ok (fst (any_exec (r_init (zlen b0)) ops), s).
Proof. intros Hb Hf Ho. apply holds_exec; auto using holds_init, exec_init_len. Qed.

Lemma holds_crash fuel s m name obj ws h b' :
  Holds s m -> enough fuel (buf s) -> zlen obj <= 65529 ->
  set_plan fuel s name obj = Ok (Some (ws, h)) -> crash_ordered (buf s) ws b' ->
  exists s' m', ctor_open fuel b' = Ok s' /\
    any_event m (ECrash name obj) AUnit m' /\ Holds s' m' /\ zlen (buf s') = zlen (buf s).
Proof.
  intros HS He Ho Hp Hc. destruct HS as (rs & HR & Hcap & Hu & Hm).
  unfold set_plan in Hp.
  destruct (getIdx_rep fuel s rs name (zlen obj) HR He) as [(r1 & r & r2 & E & Hmt & Hnm & Hl & G)|(Hnm & Hl & G)];
    rewrite G in Hp; cbn [bind] in Hp.
  - injection Hp as <- _. destruct HR as (t & Eb & Eh & Hok & Ht & Hs).
    assert (Hok' := Hok). rewrite E in Hok'. apply Forall_app in Hok'. destruct Hok' as [Hok1 Hok2].
    inversion_clear Hok2 as [|? ? Hr Hok3].
    assert (Hod : zlen obj = zlen (snd r)).
    { unfold rmatch in Hmt. rewrite !andb_true_iff, Z.eqb_eq in Hmt. symmetry. apply Hmt. }
    assert (Eb2 : buf s = encs r1 ++ enc r ++ (encs r2 ++ t)).
    { rewrite Eb, E, encs_app, encs_cons, <- !app_assoc. reflexivity. }
    rewrite Eb2 in Hc. apply crash_over in Hc; [|assumption|assumption]. destruct Hc as (v & -> & Hmx).
    assert (Hvl : zlen v = zlen obj) by (destruct Hmx as (H1 & _); lia).
    assert (Eu : upd name v rs = r1 ++ (fst r, v) :: r2).
    { rewrite E. apply upd_first; rewrite Hvl; assumption. }
    assert (HR' : Rep (mkst (encs r1 ++ enc (fst r, v) ++ encs r2 ++ t) (head s)) (upd name v rs)).
    { exists t. cbn [buf head]. rewrite encs_upd_len. rewrite Eu, encs_app, encs_cons, <- !app_assoc.
      split; [reflexivity|]. split; [assumption|]. split.
      - apply Forall_app. split; [assumption|]. constructor; [|assumption]. split; [apply Hr|cbn [snd]; lia].
      - split; [assumption|]. rewrite Eb2 in Hs. rewrite !zlen_app, !zlen_enc in * by apply Hr. cbn [snd]. lia. }
    assert (Hlen : zlen (encs r1 ++ enc (fst r, v) ++ encs r2 ++ t) = zlen (buf s)).
    { rewrite Eb2, !zlen_app, !zlen_enc by apply Hr. cbn [snd]. lia. }
    assert (Hlk : lookup rs name (zlen v) = Some (snd r)) by (rewrite Hvl; assumption).
    eexists _, (mkrm (r_cap m) (r_used m) (r_upd (r_map m) (pad4 name) v)).
    split; [apply (open_rep fuel _ _ HR'); cbn [buf]; eapply enough_len; eassumption|].
    split; [apply ae_crash_over with (old := snd r); [rewrite (holds_get_any rs); assumption|assumption]|].
    split; [|exact Hlen]. exists (upd name v rs). split; [exact HR'|]. cbn [r_cap r_used r_map buf].
    split; [lia|]. split; [rewrite encs_upd_len; assumption|].
    intros k n Hk. unfold r_upd. rewrite (lookup_upd _ _ _ _ (found_short _ _ _ _ Hl) Hlk) by assumption.
    rewrite Hm by assumption. reflexivity.
  - destruct (zlen (buf s) <? head s + (HDR + zlen obj)) eqn:Efull; [discriminate|].
    apply Z.ltb_ge in Efull. injection Hp as <- _.
    destruct HR as (t & Eb & Eh & Hok & Ht & Hs).
    rewrite Eb, Eh in Hc, Efull. rewrite zlen_app in Efull. unfold HDR in Efull.
    apply crash_append in Hc; [|assumption|lia|assumption].
    destruct Hc as [(t' & -> & Hl' & Ht')|(v & c & -> & Hmx & Hct & Hlc)].
    + assert (HR' : Rep (mkst (encs rs ++ t') (head s)) rs).
      { exists t'. cbn [buf head]. repeat split; try assumption. rewrite Eb in Hs. rewrite zlen_app in *. lia. }
      assert (Hlen : zlen (encs rs ++ t') = zlen (buf s)) by (rewrite Eb, !zlen_app; lia).
      eexists _, m. split; [apply (open_rep fuel _ _ HR'); cbn [buf]; eapply enough_len; eassumption|].
      split; [apply ae_crash_none|]. split; [|exact Hlen]. exists rs. cbn [buf]. split; [exact HR'|]. split; [lia|]. auto.
    + assert (Hvl : zlen v = zlen obj) by (destruct Hmx as (H1 & _); rewrite zlen_repeat in H1; exact H1).
      assert (Ee : encs (rs ++ [(pad4 name, v)]) = encs rs ++ enc (pad4 name, v)).
      { rewrite encs_app. change (encs [(pad4 name, v)]) with (enc (pad4 name, v) ++ []). rewrite app_nil_r. reflexivity. }
      assert (Hle : zlen (enc (pad4 name, v)) = 6 + zlen v) by (apply (zlen_enc (pad4 name, v)), pad4_len).
      assert (HR' : Rep (mkst (encs rs ++ enc (pad4 name, v) ++ c) (zlen (encs rs) + 6 + zlen v)) (rs ++ [(pad4 name, v)])).
      { exists c. cbn [buf head]. rewrite Ee, <- app_assoc. split; [reflexivity|]. split; [rewrite zlen_app, Hle; lia|].
        split; [apply Forall_app; split; [assumption|]; constructor; [|constructor]; split; [apply pad4_len|cbn [snd]; lia]|].
        split; [assumption|]. rewrite Eb in Hs. rewrite !zlen_app in *. lia. }
      assert (Hlen : zlen (encs rs ++ enc (pad4 name, v) ++ c) = zlen (buf s)) by (rewrite Eb, !zlen_app; lia).
      eexists _, (any_add m name v). split; [apply (open_rep fuel _ _ HR'); cbn [buf]; eapply enough_len; eassumption|].
      split; [apply ae_crash_new with (obj := obj); [rewrite (holds_get_any rs); assumption| |assumption]|].
      { rewrite Hu, Hcap, Eb, zlen_app. lia. }
      split; [|exact Hlen]. exists (rs ++ [(pad4 name, v)]). split; [exact HR'|].
      split; [cbn [r_cap any_add buf]; lia|]. split; [cbn [r_used any_add]; rewrite Ee, zlen_app; lia|].
      apply lookup_app_any. assumption.
Qed.
Lemma holds_mrun fuel es : forall s m l s', Holds s m -> enough fuel (buf s) -> Forall valid_event es -> mrun fuel s es l s' ->
  exists m', any_run m es l m' /\ Holds s' m' /\ zlen (buf s') = zlen (buf s).
Proof.
  induction es as [|e es IH]; intros s m l s' HS He Hok Hr; inversion Hr as [|s0 e0 a s1 es0 l0 s2 Hst Hrest]; subst.
  - exists m. split; [constructor|]. auto.
  - inversion_clear Hok as [|? ? Ho1 Ho2].
    assert (H1 : exists m1, any_event m e a m1 /\ Holds s1 m1 /\ zlen (buf s1) = zlen (buf s)).
    { inversion Hst as [s3 o a0 s4 E|s3 name obj ws h b' s4 Hp Hc Hopen|s3 name obj s4 Hp Hopen]; subst.
      - destruct (holds_step fuel s m o HS He Ho1) as (s2 & E2 & HS2 & Hl).
        rewrite E in E2. injection E2 as -> ->. exists (snd (any_step m o)). split; [|auto].
        apply ae_op. destruct (any_step m o); reflexivity.
      - destruct Ho1 as (_ & _ & Ho).
        destruct (holds_crash fuel s m name obj ws h b' HS He Ho Hp Hc) as (s2 & m' & E & Hv & HS' & Hl).
        rewrite Hopen in E. apply Ok_inj in E. subst s2. exists m'. auto.
      - exists m. destruct HS as (rs & HR & Hx). rewrite (open_rep fuel s rs) in Hopen by assumption. injection Hopen as <-.
        split; [apply ae_crash_none|]. split; [exists rs; auto|reflexivity]. }
    destruct H1 as (m1 & Hr1 & HS1 & Hl1).
    destruct (IH _ _ _ _ HS1 ltac:(eapply enough_len; eassumption) Ho2 Hrest) as (m2 & Hr2 & HS2 & Hl2).
    exists m2. split; [econstructor; eassumption|]. split; [assumption|]. lia.
Qed.
Lemma any_names_crashes fuel b0 es l s :
  zlen b0 < 4294967296 -> (length b0 < fuel)%nat -> Forall valid_event es -> mrun fuel (ctor_init b0) es l s ->
  exists m, any_run (r_init (zlen b0)) es l m /\
    (forall ops, Forall op_ok ops -> exists s', exec fuel s ops = Ok (fst (any_exec m ops), s')) /\
    forall name obj, zlen obj <= 65529 -> exists p, set_plan fuel s name obj = Ok p /\
      forall ws h b', p = Some (ws, h) -> crash_ordered (buf s) ws b' -> exists s', ctor_open fuel b' = Ok s'.
Proof.
  intros Hb Hf Hok Hr.
  destruct (holds_mrun fuel es _ _ _ _ (holds_init b0 Hb) (exec_init_len fuel b0 Hf) Hok Hr) as (m & Hrr & HS & Hl).
  assert (He : enough fuel (buf s)) by (eapply enough_len; [eassumption|]; apply exec_init_len; assumption).
  exists m. split; [assumption|]. split; [intros ops Ho; apply holds_exec; assumption|].
  intros name obj Ho. destruct (holds_set fuel s m name obj HS He Ho) as (s' & E & _).
  unfold set in E. destruct (set_plan fuel s name obj) as [p| |] eqn:Ep; try discriminate.
  exists p. split; [reflexivity|]. intros ws h b' -> Hc.
  destruct (holds_crash fuel s m name obj ws h b' HS He Ho Ep Hc) as (s2 & m' & E2 & _). exists s2. exact E2.
Qed.
