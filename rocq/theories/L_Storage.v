From Verif Require Import Base M_Storage S_Storage.

(** ** Encoding of records *)
Definition rec : Type := list Z * list Z.
Definition enc (r : rec) : list Z :=
  [(6 + zlen (snd r)) mod 256; (6 + zlen (snd r)) / 256] ++ fst r ++ snd r.
Definition encs (rs : list rec) : list Z := concat (map enc rs).
Definition rec_ok (r : rec) : Prop := zlen (fst r) = 4 /\ zlen (snd r) <= 65529.

Lemma zlen_enc r : zlen (fst r) = 4 -> zlen (enc r) = 6 + zlen (snd r).
Proof. intros H. unfold enc. rewrite !zlen_app, H. change (zlen [_; _]) with 2. lia. Qed.
Lemma encs_app a b : encs (a ++ b) = encs a ++ encs b.
Proof. unfold encs. rewrite map_app, concat_app. reflexivity. Qed.
Lemma encs_cons r a : encs (r :: a) = enc r ++ encs a.
Proof. reflexivity. Qed.
Lemma encs_len_ge rs : Forall rec_ok rs -> 6 * zlen rs <= zlen (encs rs).
Proof.
  induction 1 as [|r rs [Hr _] H IH]; [cbn; lia|].
  rewrite encs_cons, zlen_app, zlen_cons, zlen_enc by assumption. pose proof (zlen_nonneg (snd r)). lia.
Qed.

(** ** Name comparison *)
Lemma pad4_len name : zlen (pad4 name) = 4.
Proof. unfold pad4, zlen. rewrite firstn_length, app_length. cbn [length]. lia. Qed.
Lemma idx_bytes_pad4 name : idx_bytes name = pad4 name.
Proof.
  unfold idx_bytes, pad4. destruct name as [|a [|b [|c [|d l]]]]; reflexivity.
Qed.
Lemma idx_bytes_len name : zlen (idx_bytes name) = 4.
Proof. rewrite idx_bytes_pad4. apply pad4_len. Qed.
Lemma idx_eq_spec k name : zlen k = 4 -> (idx_eq k name = true <-> zlen name <= 4 /\ k = pad4 name).
Proof.
  intros Hk. unfold idx_eq. rewrite Hk.
  destruct (Z.ltb_spec 4 (zlen name)) as [H|H]; [split; [discriminate|lia]|].
  destruct k as [|k1 [|k2 [|k3 [|k4 [|]]]]]; unfold zlen in Hk; cbn [length] in Hk; try lia.
  destruct name as [|a [|b [|c [|d [|e l]]]]]; unfold zlen in H; cbn [length] in H; try lia;
    cbn [length firstn skipn eqbl negb andb forallb pad4 app];
    (split; [intros E | intros [_ E]; injection E; intros; subst; rewrite ?Z.eqb_refl; reflexivity]);
    repeat match type of E with
    | context [?x =? ?y] => destruct (Z.eqb_spec x y); subst; cbn [andb negb] in E; try discriminate
    end; split; try (unfold zlen; cbn [length]; lia); reflexivity.
Qed.

(** ** Reading a record placed in a buffer *)
Lemma node_size_enc a r c pos : rec_ok r -> pos = zlen a ->
  node_size (a ++ enc r ++ c) pos = Ok (6 + zlen (snd r)).
Proof.
  intros [Hk Hd] ->. unfold node_size, enc. rewrite <- !app_assoc.
  rewrite (rd_slice_mid a _ _ (zlen a) 2) by reflexivity. cbn [bind]. f_equal.
  set (x := 6 + zlen (snd r)). change (x mod 256 + 256 * (x / 256) = x). pose proof (Z.div_mod x 256). lia.
Qed.
Lemma node_idx_enc a r c pos : rec_ok r -> pos = zlen a -> node_idx (a ++ enc r ++ c) pos = Ok (fst r).
Proof.
  intros [Hk Hd] ->. unfold node_idx, enc.
  replace (a ++ ([(6 + zlen (snd r)) mod 256; (6 + zlen (snd r)) / 256] ++ fst r ++ snd r) ++ c)
    with ((a ++ [(6 + zlen (snd r)) mod 256; (6 + zlen (snd r)) / 256]) ++ fst r ++ snd r ++ c)
    by (rewrite <- !app_assoc; reflexivity).
  apply rd_slice_mid; [rewrite zlen_app; reflexivity|lia].
Qed.
Lemma node_data_enc a r c pos n : rec_ok r -> pos = zlen a + HDR -> n = zlen (snd r) ->
  rd_slice (a ++ enc r ++ c) pos n = Ok (snd r).
Proof.
  intros [Hk Hd] -> ->. unfold enc.
  replace (a ++ ([(6 + zlen (snd r)) mod 256; (6 + zlen (snd r)) / 256] ++ fst r ++ snd r) ++ c)
    with ((a ++ [(6 + zlen (snd r)) mod 256; (6 + zlen (snd r)) / 256] ++ fst r) ++ snd r ++ c)
    by (rewrite <- !app_assoc; reflexivity).
  apply rd_slice_mid; [|reflexivity]. rewrite !zlen_app, Hk. unfold HDR. change (zlen [_; _]) with 2. lia.
Qed.

(** ** Lookup *)
Definition rmatch (name : list Z) (n : Z) (r : rec) : bool :=
  (zlen name <=? 4) && eqbl (fst r) (pad4 name) && (zlen (snd r) =? n).
Fixpoint lookup (rs : list rec) (name : list Z) (n : Z) : option (list Z) :=
  match rs with
  | [] => None
  | r :: rs' => if rmatch name n r then Some (snd r) else lookup rs' name n
  end.
Lemma match_code r name n : zlen (fst r) = 4 ->
  idx_eq (fst r) name && (6 + zlen (snd r) =? HDR + n) = rmatch name n r.
Proof.
  intros H. unfold rmatch, HDR. apply eq_true_iff_eq. rewrite !andb_true_iff, idx_eq_spec, eqbl_spec by assumption.
  rewrite Z.leb_le, !Z.eqb_eq. intuition lia.
Qed.

Lemma u32_small z : 0 <= z < 4294967296 -> u32 z = z.
Proof. apply Z.mod_small. Qed.

Lemma getIdx_hit name n hd : forall r2 r1 r r3 c fuel,
  Forall rec_ok r2 -> rec_ok r ->
  Forall (fun x => rmatch name n x = false) r2 -> rmatch name n r = true ->
  let b := encs r1 ++ encs r2 ++ enc r ++ encs r3 ++ c in
  zlen (encs r1 ++ encs r2 ++ enc r) <= hd -> hd <= zlen b -> zlen b < 4294967296 ->
  (length r2 < fuel)%nat ->
  getIdx fuel b hd name n (zlen (encs r1)) = Ok (Some (zlen (encs (r1 ++ r2)))).
Proof.
  induction r2 as [|q r2 IH]; intros r1 r r3 c fuel H2 Hr Hm Hmr b Hhd Hb Hbs Hf;
    (destruct fuel as [|fuel]; [cbn in Hf; lia|]); cbn [getIdx].
  - assert (L : zlen (encs r1) + HDR <= hd).
    { rewrite !zlen_app, zlen_enc in Hhd by apply Hr. pose proof (zlen_nonneg (snd r)).
      change (zlen (encs [])) with 0 in Hhd. unfold HDR. lia. }
    replace (zlen (encs r1) + HDR <=? hd) with true by lia.
    subst b. change (encs []) with (@nil Z). cbn [app].
    rewrite node_idx_enc by auto. cbn [bind]. rewrite node_size_enc by auto. cbn [bind].
    rewrite match_code by apply Hr. rewrite Hmr, app_nil_r. reflexivity.
  - inversion_clear H2 as [|? ? Hq H2']. inversion_clear Hm as [|? ? Hmq Hm'].
    assert (Hl : zlen (encs r1 ++ encs (q :: r2) ++ enc r) =
                 zlen (encs r1) + (6 + zlen (snd q)) + zlen (encs r2) + (6 + zlen (snd r))).
    { rewrite encs_cons, !zlen_app, !zlen_enc by (apply Hq || apply Hr). lia. }
    pose proof (zlen_nonneg (snd r)). pose proof (zlen_nonneg (snd q)).
    pose proof (zlen_nonneg (encs r1)). pose proof (zlen_nonneg (encs r2)).
    replace (zlen (encs r1) + HDR <=? hd) with true by (unfold HDR; lia).
    assert (Eb : b = encs (r1 ++ [q]) ++ encs r2 ++ enc r ++ encs r3 ++ c).
    { subst b. rewrite encs_app, !encs_cons. change (encs []) with (@nil Z). rewrite app_nil_r, <- !app_assoc. reflexivity. }
    assert (E1 : b = encs r1 ++ enc q ++ (encs r2 ++ enc r ++ encs r3 ++ c)).
    { subst b. rewrite encs_cons, <- !app_assoc. reflexivity. }
    rewrite E1 at 1. rewrite node_idx_enc by auto. cbn [bind].
    rewrite E1 at 1. rewrite node_size_enc by auto. cbn [bind].
    rewrite match_code by apply Hq. rewrite Hmq.
    rewrite u32_small by lia.
    replace (zlen (encs r1) + (6 + zlen (snd q))) with (zlen (encs (r1 ++ [q]))).
    2:{ rewrite encs_app, zlen_app, encs_cons, zlen_app, zlen_enc by apply Hq. change (zlen (encs [])) with 0. lia. }
    rewrite Eb. rewrite IH; auto.
    + rewrite <- app_assoc. reflexivity.
    + rewrite encs_app, !zlen_app, encs_cons, zlen_app, !zlen_enc by (apply Hq || apply Hr).
      change (zlen (encs [])) with 0. lia.
    + rewrite <- Eb. assumption.
    + rewrite <- Eb. assumption.
    + cbn in Hf. lia.
Qed.

Lemma getIdx_miss name n : forall r2 r1 c fuel,
  Forall rec_ok r2 ->
  Forall (fun x => rmatch name n x = false) r2 ->
  let b := encs r1 ++ encs r2 ++ c in
  zlen b < 4294967296 -> (length r2 < fuel)%nat ->
  getIdx fuel b (zlen (encs r1 ++ encs r2)) name n (zlen (encs r1)) = Ok None.
Proof.
  induction r2 as [|q r2 IH]; intros r1 c fuel H2 Hm b Hbs Hf;
    (destruct fuel as [|fuel]; [cbn in Hf; lia|]); cbn [getIdx].
  - change (encs []) with (@nil Z). rewrite app_nil_r.
    replace (zlen (encs r1) + HDR <=? zlen (encs r1)) with false by (unfold HDR; lia). reflexivity.
  - inversion_clear H2 as [|? ? Hq H2']. inversion_clear Hm as [|? ? Hmq Hm'].
    assert (Hl : zlen (encs r1 ++ encs (q :: r2)) = zlen (encs r1) + (6 + zlen (snd q)) + zlen (encs r2)).
    { rewrite encs_cons, !zlen_app, !zlen_enc by apply Hq. lia. }
    pose proof (zlen_nonneg (snd q)).
    pose proof (zlen_nonneg (encs r1)). pose proof (zlen_nonneg (encs r2)). pose proof (zlen_nonneg c).
    assert (Hlb : zlen b = zlen (encs r1) + (6 + zlen (snd q)) + zlen (encs r2) + zlen c).
    { subst b. rewrite app_assoc, zlen_app, Hl. lia. }
    rewrite Hl.
    replace (zlen (encs r1) + HDR <=? zlen (encs r1) + (6 + zlen (snd q)) + zlen (encs r2)) with true by (unfold HDR; lia).
    assert (Eb : b = encs (r1 ++ [q]) ++ encs r2 ++ c).
    { subst b. rewrite encs_app, !encs_cons. change (encs []) with (@nil Z). rewrite app_nil_r, <- !app_assoc. reflexivity. }
    assert (E1 : b = encs r1 ++ enc q ++ (encs r2 ++ c)).
    { subst b. rewrite encs_cons, <- !app_assoc. reflexivity. }
    rewrite E1 at 1. rewrite node_idx_enc by auto. cbn [bind].
    rewrite E1 at 1. rewrite node_size_enc by auto. cbn [bind].
    rewrite match_code by apply Hq. rewrite Hmq.
    rewrite u32_small by lia.
    assert (Hq1 : zlen (encs (r1 ++ [q])) = zlen (encs r1) + (6 + zlen (snd q))).
    { rewrite encs_app, zlen_app, encs_cons, zlen_app, zlen_enc by apply Hq. change (zlen (encs [])) with 0. lia. }
    rewrite <- Hq1. rewrite <- zlen_app. rewrite Eb. apply IH; auto.
    + rewrite <- Eb. assumption.
    + cbn in Hf. lia.
Qed.

(** first match splits the record list *)
Lemma first_match name n rs :
  (exists r1 r r2, rs = r1 ++ r :: r2 /\ rmatch name n r = true /\
                   Forall (fun x => rmatch name n x = false) r1 /\ lookup rs name n = Some (snd r)) \/
  (Forall (fun x => rmatch name n x = false) rs /\ lookup rs name n = None).
Proof.
  induction rs as [|q rs IH]; [right; split; [constructor|reflexivity]|].
  cbn [lookup]. destruct (rmatch name n q) eqn:E.
  - left. exists [], q, rs. repeat split; auto.
  - destruct IH as [(r1 & r & r2 & -> & Hm & Hf & Hl)|[Hf Hl]].
    + left. exists (q :: r1), r, r2. repeat split; auto.
    + right. split; auto.
Qed.

(** ** The representation relation *)
Definition tail_ok (t : list Z) : Prop :=
  forall i, 0 <= i < zlen t -> i < 2 \/ 6 <= i -> nthZ t i = 0.
Definition Rep (s : st) (rs : list rec) : Prop :=
  exists t, buf s = encs rs ++ t /\ head s = zlen (encs rs) /\ Forall rec_ok rs /\ tail_ok t /\
            zlen (buf s) < 4294967296.
Definition enough (fuel : nat) (b : list Z) : Prop := (length b < fuel)%nat.

Lemma enough_recs fuel rs t : Forall rec_ok rs -> enough fuel (encs rs ++ t) -> (length rs < fuel)%nat.
Proof.
  intros H He. pose proof (encs_len_ge rs H) as Hl. unfold enough in He. rewrite app_length in He.
  unfold zlen in Hl. lia.
Qed.

Lemma getIdx_rep fuel s rs name n : Rep s rs -> enough fuel (buf s) ->
  (exists r1 r r2, rs = r1 ++ r :: r2 /\ rmatch name n r = true /\
      Forall (fun x => rmatch name n x = false) r1 /\ lookup rs name n = Some (snd r) /\
      getIdx fuel (buf s) (head s) name n 0 = Ok (Some (zlen (encs r1)))) \/
  (Forall (fun x => rmatch name n x = false) rs /\ lookup rs name n = None /\
      getIdx fuel (buf s) (head s) name n 0 = Ok None).
Proof.
  intros (t & Eb & Eh & Hok & Ht & Hs) He.
  pose proof (enough_recs _ _ _ Hok ltac:(rewrite <- Eb; exact He)) as Hf.
  destruct (first_match name n rs) as [(r1 & r & r2 & E & Hm & Hn & Hl)|[Hn Hl]].
  - left. exists r1, r, r2. repeat split; auto. subst rs.
    apply Forall_app in Hok. destruct Hok as [Hok1 Hok2]. inversion_clear Hok2 as [|? ? Hr Hok3].
    rewrite encs_app, encs_cons in *. rewrite <- !app_assoc in Eb.
    rewrite app_length in Hf. rewrite Eb, Eh in *.
    pose proof (getIdx_hit name n (zlen (encs r1 ++ enc r ++ encs r2)) r1 [] r r2 t fuel Hok1 Hr Hn Hm) as G.
    cbn [app encs map concat] in G. apply G.
    + rewrite !zlen_app. pose proof (zlen_nonneg (encs r2)). unfold encs in *. lia.
    + rewrite !zlen_app. pose proof (zlen_nonneg t). unfold encs in *. lia.
    + assumption.
    + lia.
  - right. repeat split; auto. rewrite Eb, Eh in *.
    pose proof (getIdx_miss name n rs [] t fuel Hok Hn) as G. cbn [app encs map concat] in G. apply G; assumption.
Qed.

Lemma get_rep fuel s rs name n : Rep s rs -> enough fuel (buf s) ->
  get fuel s name n = Ok (lookup rs name n).
Proof.
  intros HR He. unfold get.
  destruct (getIdx_rep fuel s rs name n HR He) as [(r1 & r & r2 & E & Hm & Hn & Hl & G)|(Hn & Hl & G)];
    rewrite G, Hl; cbn [bind]; [|reflexivity].
  destruct HR as (t & Eb & Eh & Hok & Ht & Hs). subst rs. rewrite encs_app, encs_cons in Eb.
  apply Forall_app in Hok. destruct Hok as [Hok1 Hok2]. inversion_clear Hok2 as [|? ? Hr Hok3].
  rewrite <- !app_assoc in Eb. rewrite Eb. rewrite node_idx_enc by auto. cbn [bind].
  rewrite node_size_enc by auto. cbn [bind]. rewrite match_code by apply Hr. rewrite Hm.
  rewrite node_data_enc; auto. unfold rmatch in Hm. rewrite !andb_true_iff, Z.eqb_eq in Hm. symmetry. apply Hm.
Qed.

(** effect of [set] on the record list *)
Fixpoint upd (name obj : list Z) (l : list rec) : list rec :=
  match l with
  | [] => []
  | r :: l' => if rmatch name (zlen obj) r then (fst r, obj) :: l' else r :: upd name obj l'
  end.
Definition set_recs (cap : Z) (rs : list rec) (name obj : list Z) : bool * list rec :=
  match lookup rs name (zlen obj) with
  | Some _ => (true, upd name obj rs)
  | None => if cap <? zlen (encs rs) + 6 + zlen obj then (false, rs) else (true, rs ++ [(pad4 name, obj)])
  end.
Lemma upd_first name obj r1 r r2 :
  Forall (fun x => rmatch name (zlen obj) x = false) r1 -> rmatch name (zlen obj) r = true ->
  upd name obj (r1 ++ r :: r2) = r1 ++ (fst r, obj) :: r2.
Proof.
  intros Hn Hm. induction Hn as [|q r1 Hq Hn IH]; cbn [upd app]; [rewrite Hm; reflexivity|].
  rewrite Hq, IH. reflexivity.
Qed.

Lemma enc_hdr k d d' : zlen d = zlen d' ->
  exists h, zlen h = 2 /\ enc (k, d) = h ++ k ++ d /\ enc (k, d') = h ++ k ++ d'.
Proof.
  intros H. exists [(6 + zlen d) mod 256; (6 + zlen d) / 256]. unfold enc. cbn [fst snd]. rewrite H. auto.
Qed.

Lemma wr_data_enc a r c obj : rec_ok r -> zlen obj = zlen (snd r) ->
  wr_slice (a ++ enc r ++ c) (zlen a + HDR) obj = Ok (a ++ enc (fst r, obj) ++ c).
Proof.
  intros [Hk Hd] Ho. destruct r as [k d]. cbn [fst snd] in *.
  destruct (enc_hdr k d obj (eq_sym Ho)) as (h & Hh & -> & ->).
  replace (a ++ (h ++ k ++ d) ++ c) with ((a ++ h ++ k) ++ d ++ c) by (rewrite <- !app_assoc; reflexivity).
  replace (a ++ (h ++ k ++ obj) ++ c) with ((a ++ h ++ k) ++ obj ++ c) by (rewrite <- !app_assoc; reflexivity).
  apply wr_slice_mid; [|assumption]. rewrite !zlen_app. unfold HDR. lia.
Qed.

Lemma size_bytes_small n : 0 <= n <= 65529 -> size_bytes (HDR + n) = [(6 + n) mod 256; (6 + n) / 256].
Proof. intros H. unfold size_bytes, u16, HDR. rewrite !(Z.mod_small (6 + n)) by lia. reflexivity. Qed.

(** writing a record at the head *)
Lemma tail_split (t : list Z) n : 0 <= n -> 6 + n <= zlen t ->
  exists h k d c, t = h ++ k ++ d ++ c /\ zlen h = 2 /\ zlen k = 4 /\ zlen d = n.
Proof.
  intros Hn H. destruct (split_at t 2) as (h & t1 & -> & Hh); [lia|]. rewrite zlen_app in H.
  destruct (split_at t1 4) as (k & t2 & -> & Hk); [lia|]. rewrite zlen_app in H.
  destruct (split_at t2 n) as (d & c & -> & Hd); [lia|]. exists h, k, d, c. repeat split; assumption.
Qed.
Lemma append_stores (a t : list Z) name obj : zlen obj <= 65529 -> 6 + zlen obj <= zlen t ->
  exists h k d c, t = h ++ k ++ d ++ c /\ zlen h = 2 /\ zlen k = 4 /\ zlen d = zlen obj /\
    wr_slice (a ++ t) (zlen a + 2) (idx_bytes name) = Ok (a ++ h ++ pad4 name ++ d ++ c) /\
    wr_slice (a ++ h ++ pad4 name ++ d ++ c) (zlen a) (size_bytes (HDR + zlen obj))
      = Ok (a ++ enc (pad4 name, d) ++ c) /\
    wr_slice (a ++ enc (pad4 name, d) ++ c) (zlen a + HDR) obj = Ok (a ++ enc (pad4 name, obj) ++ c).
Proof.
  intros Ho Ht. pose proof (zlen_nonneg obj).
  destruct (tail_split t (zlen obj)) as (h & k & d & c & -> & Hh & Hk & Hd); try lia.
  exists h, k, d, c. split; [reflexivity|]. repeat split; try assumption.
  - replace (a ++ h ++ k ++ d ++ c) with ((a ++ h) ++ k ++ d ++ c) by (rewrite <- !app_assoc; reflexivity).
    replace (a ++ h ++ pad4 name ++ d ++ c) with ((a ++ h) ++ pad4 name ++ d ++ c) by (rewrite <- !app_assoc; reflexivity).
    rewrite idx_bytes_pad4. apply wr_slice_mid; [rewrite zlen_app; lia|rewrite pad4_len; lia].
  - rewrite size_bytes_small by lia. unfold enc. cbn [fst snd]. rewrite <- !app_assoc, Hd.
    apply wr_slice_mid; [reflexivity|exact (eq_sym Hh)].
  - apply (wr_data_enc a (pad4 name, d) c obj); [|cbn [snd]; lia].
    split; cbn [fst snd]; [apply pad4_len|lia].
Qed.
Lemma apply_append (a t : list Z) name obj : zlen obj <= 65529 -> 6 + zlen obj <= zlen t ->
  exists t1 c, t = t1 ++ c /\ zlen t1 = 6 + zlen obj /\
  apply_stores (a ++ t) [mkstore (zlen a + 2) (idx_bytes name) false;
                         mkstore (zlen a) (size_bytes (HDR + zlen obj)) true;
                         mkstore (zlen a + HDR) obj false]
   = Ok (a ++ enc (pad4 name, obj) ++ c).
Proof.
  intros Ho Ht. destruct (append_stores a t name obj Ho Ht) as (h & k & d & c & E & Hh & Hk & Hd & W1 & W2 & W3).
  exists (h ++ k ++ d), c. split; [rewrite <- !app_assoc; exact E|].
  split; [rewrite !zlen_app; lia|].
  cbn [apply_stores w_off w_data]. rewrite W1. cbn [bind]. rewrite W2. cbn [bind]. rewrite W3. reflexivity.
Qed.
Lemma tail_ok_suffix a c : 6 <= zlen a -> tail_ok (a ++ c) -> tail_ok c /\ Forall (fun z => z = 0) c.
Proof.
  intros Ha H.
  assert (Z0 : forall i, 0 <= i < zlen c -> nthZ c i = 0).
  { intros i Hi. specialize (H (zlen a + i)). rewrite nthZ_app in H by lia.
    replace (zlen a + i <? zlen a) with false in H by lia.
    replace (zlen a + i - zlen a) with i in H by lia. apply H; [rewrite zlen_app|]; lia. }
  split; [intros i Hi _; auto|].
  apply Forall_forall. intros x Hx. destruct (In_nth _ _ 0 Hx) as (j & Hj & <-).
  specialize (Z0 (Z.of_nat j)). unfold nthZ, zlen in Z0. rewrite Nat2Z.id in Z0. apply Z0. lia.
Qed.

Lemma set_rep fuel s rs name obj : Rep s rs -> enough fuel (buf s) -> zlen obj <= 65529 ->
  exists s', set fuel s name obj = Ok (fst (set_recs (zlen (buf s)) rs name obj), s') /\
    Rep s' (snd (set_recs (zlen (buf s)) rs name obj)) /\ zlen (buf s') = zlen (buf s) /\
    (fst (set_recs (zlen (buf s)) rs name obj) = false -> s' = s) /\
    head s <= head s'.
Proof.
  intros HR He Ho. unfold set, set_plan, set_recs.
  destruct (getIdx_rep fuel s rs name (zlen obj) HR He) as [(r1 & r & r2 & E & Hm & Hn & Hl & G)|(Hn & Hl & G)];
    rewrite G, Hl; cbn [bind].
  - destruct HR as (t & Eb & Eh & Hok & Ht & Hs). subst rs. rewrite upd_first by assumption.
    apply Forall_app in Hok. destruct Hok as [Hok1 Hok2]. inversion_clear Hok2 as [|? ? Hr Hok3].
    assert (Hod : zlen obj = zlen (snd r)).
    { unfold rmatch in Hm. rewrite !andb_true_iff, Z.eqb_eq in Hm. symmetry. apply Hm. }
    assert (Hlen : zlen (enc (fst r, obj)) = zlen (enc r)) by (rewrite !zlen_enc by apply Hr; cbn [snd]; lia).
    rewrite encs_app, encs_cons, <- !app_assoc in Eb. cbn [apply_stores w_off w_data].
    rewrite Eb, wr_data_enc by assumption. cbn [bind].
    eexists. split; [reflexivity|]. cbn [fst snd].
    assert (Eb' : encs r1 ++ enc (fst r, obj) ++ encs r2 ++ t = encs (r1 ++ (fst r, obj) :: r2) ++ t)
      by (rewrite encs_app, encs_cons, <- !app_assoc; reflexivity).
    split; [|split; [|split]].
    + exists t. cbn [buf head]. split; [exact Eb'|]. split.
      { rewrite Eh, !encs_app, !encs_cons, !zlen_app, Hlen. reflexivity. }
      split; [apply Forall_app; split; [assumption|]; constructor; [|assumption]; split; [apply Hr|cbn [snd]; lia]|].
      split; [assumption|]. rewrite Eb in Hs. rewrite !zlen_app in *. lia.
    + cbn [buf]. rewrite !zlen_app. lia.
    + discriminate.
    + cbn [head]. lia.
  - replace (HDR + zlen obj) with (6 + zlen obj) by reflexivity.
    destruct HR as (t & Eb & Eh & Hok & Ht & Hs).
    replace (head s + (6 + zlen obj)) with (zlen (encs rs) + 6 + zlen obj) by lia.
    destruct (Z.ltb_spec (zlen (buf s)) (zlen (encs rs) + 6 + zlen obj)) as [Hfull|Hfit].
    + exists s. cbn [bind fst snd]. repeat split; auto; try lia. exists t. repeat split; assumption.
    + cbn [bind]. rewrite Eh, Eb. rewrite Eb, zlen_app in Hfit.
      destruct (apply_append (encs rs) t name obj Ho ltac:(lia)) as (t1 & c & Et & Ht1 & W).
      change (6 + zlen obj) with (HDR + zlen obj). rewrite W. cbn [bind]. eexists. split; [reflexivity|].
      cbn [fst snd buf head].
      assert (Hle : zlen (enc (pad4 name, obj)) = 6 + zlen obj) by (apply (zlen_enc (pad4 name, obj)), pad4_len).
      assert (Hsum : zlen (encs rs) + (6 + zlen obj) + zlen c = zlen (encs rs ++ t)).
      { rewrite Et, !zlen_app. lia. }
      pose proof (zlen_nonneg (encs rs)). pose proof (zlen_nonneg obj). pose proof (zlen_nonneg c).
      rewrite Eb in Hs. rewrite u32_small by (unfold HDR; lia).
      split; [|split; [|split]].
      * exists c. cbn [buf head]. rewrite encs_app. change (encs [(pad4 name, obj)]) with (enc (pad4 name, obj) ++ []).
        rewrite app_nil_r. split; [rewrite <- app_assoc; reflexivity|]. split; [rewrite zlen_app, Hle; unfold HDR; lia|].
        split; [apply Forall_app; split; [assumption|]; constructor; [|constructor]; split; [apply pad4_len|cbn [snd]; lia]|].
        split; [|rewrite !zlen_app; lia].
        apply (tail_ok_suffix t1 c); [pose proof (zlen_nonneg obj); lia|rewrite <- Et; assumption].
      * rewrite !zlen_app in *. lia.
      * discriminate.
      * unfold HDR. lia.
Qed.

(** ** Reopening *)
Lemma scan_recs : forall r2 r1 c fuel, Forall rec_ok r2 ->
  let b := encs r1 ++ encs r2 ++ c in zlen b < 4294967296 -> (length r2 <= fuel)%nat ->
  scan fuel b (zlen (encs r1)) = scan (fuel - length r2) b (zlen (encs r1 ++ encs r2)).
Proof.
  induction r2 as [|q r2 IH]; intros r1 c fuel Hok b Hb Hf.
  - change (encs []) with (@nil Z). rewrite app_nil_r. cbn [length]. rewrite Nat.sub_0_r. reflexivity.
  - destruct fuel as [|fuel]; [cbn in Hf; lia|]. inversion_clear Hok as [|? ? Hq Hok'].
    assert (Eb : b = encs (r1 ++ [q]) ++ encs r2 ++ c).
    { subst b. rewrite encs_app, !encs_cons. change (encs []) with (@nil Z). rewrite app_nil_r, <- !app_assoc. reflexivity. }
    assert (E1 : b = encs r1 ++ enc q ++ (encs r2 ++ c)).
    { subst b. rewrite encs_cons, <- !app_assoc. reflexivity. }
    assert (Hlb : zlen b = zlen (encs r1) + (6 + zlen (snd q)) + zlen (encs r2) + zlen c).
    { rewrite E1, !zlen_app, zlen_enc by apply Hq. lia. }
    pose proof (zlen_nonneg (snd q)). pose proof (zlen_nonneg (encs r1)).
    pose proof (zlen_nonneg (encs r2)). pose proof (zlen_nonneg c).
    cbn [scan length]. replace (zlen (encs r1) + HDR <=? zlen b) with true by (unfold HDR; lia).
    rewrite E1 at 1. rewrite node_size_enc by auto. cbn [bind].
    replace (6 + zlen (snd q) =? 0) with false by lia.
    replace (zlen (encs r1) + (6 + zlen (snd q)) <=? zlen b) with true by lia.
    rewrite u32_small by lia.
    assert (Hq1 : zlen (encs (r1 ++ [q])) = zlen (encs r1) + (6 + zlen (snd q))).
    { rewrite encs_app, zlen_app, encs_cons, zlen_app, zlen_enc by apply Hq. change (zlen (encs [])) with 0. lia. }
    rewrite <- Hq1. rewrite Eb. rewrite IH; auto.
    + f_equal. rewrite encs_app, !encs_cons. change (encs []) with (@nil Z). rewrite app_nil_r, <- !app_assoc. reflexivity.
    + rewrite <- Eb. assumption.
    + cbn in Hf. lia.
Qed.
Lemma open_rep fuel s rs : Rep s rs -> enough fuel (buf s) -> ctor_open fuel (buf s) = Ok s.
Proof.
  intros (t & Eb & Eh & Hok & Ht & Hs) He. unfold ctor_open.
  pose proof (enough_recs _ _ _ Hok ltac:(rewrite <- Eb; exact He)) as Hf.
  pose proof (scan_recs rs [] t fuel Hok) as G. cbn [app encs map concat] in G. change (zlen []) with 0 in G.
  rewrite Eb in Hs |- *. fold (encs rs) in G. rewrite G by (try assumption; lia). clear G.
  destruct (fuel - length rs)%nat as [|f] eqn:Ef; [lia|]. cbn [scan].
  destruct (Z.leb_spec (zlen (encs rs) + HDR) (zlen (encs rs ++ t))) as [H|H].
  - unfold node_size. rewrite rd_slice_ok by (unfold HDR in H; pose proof (zlen_nonneg (encs rs)); lia).
    cbn [bind]. pose proof (zlen_nonneg (encs rs)). rewrite !nthZ_slice by lia. rewrite !nthZ_app by lia.
    replace (zlen (encs rs) + 0 <? zlen (encs rs)) with false by lia.
    replace (zlen (encs rs) + 1 <? zlen (encs rs)) with false by lia.
    replace (zlen (encs rs) + 0 - zlen (encs rs)) with 0 by lia.
    replace (zlen (encs rs) + 1 - zlen (encs rs)) with 1 by lia.
    rewrite zlen_app in H. unfold HDR in H. rewrite !Ht by lia. cbn [Z.mul Z.add Z.eqb bind].
    destruct s as [b h]. cbn [buf head] in *. subst. reflexivity.
  - cbn [bind]. destruct s as [b h]. cbn [buf head] in *. subst. reflexivity.
Qed.
Lemma rep_init b : zlen b < 4294967296 -> Rep (ctor_init b) [].
Proof.
  intros H. exists (repeat 0 (length b)). cbn. repeat split; auto.
  - intros i _ _. unfold nthZ. apply nth_repeat.
  - rewrite zlen_repeat. exact H.
Qed.
