(** Lemmas about the PBM files of the tests. *)
From Verif Require Import Base S_BufferedOut S_Graphics S_Packing S_Pbm M_BufferedOut M_Pbm L_Decimal L_Packing.
Ltac Zify.zify_post_hook ::= Z.div_mod_to_equations.

(** ** The header *)
Lemma isSpace_spec c : isSpace c = true <-> space c.
Proof.
  unfold isSpace, space. cbn [In]. rewrite orb_true_iff, andb_true_iff. lia.
Qed.
Lemma skip_spaces s t : Forall space s -> skipSpace (s ++ t) = skipSpace t.
Proof.
  induction 1 as [|c s Hc _ IH]; [reflexivity|]. cbn [app skipSpace]. apply isSpace_spec in Hc. rewrite Hc. exact IH.
Qed.
Lemma skip_none c t : isSpace c = false -> skipSpace (c :: t) = c :: t.
Proof. intros H. cbn [skipSpace]. rewrite H. reflexivity. Qed.
Lemma span_all f a b : Forall (fun c => f c = true) a -> match b with [] => True | c :: _ => f c = false end ->
  span f (a ++ b) = (a, b).
Proof.
  intros Ha Hb. induction Ha as [|c a Hc _ IH].
  - cbn [app]. destruct b as [|c b]; [reflexivity|]. cbn [span]. rewrite Hb. reflexivity.
  - cbn [app span]. rewrite Hc, IH. reflexivity.
Qed.
Lemma spaces_head s : spaces s -> exists c s', s = c :: s' /\ isSpace c = true /\ Forall space s'.
Proof.
  intros [H F]. destruct s as [|c s]; [congruence|]. inversion F; subst. exists c, s. rewrite isSpace_spec. auto.
Qed.

Lemma readWord_ok s0 w s1 t : Forall space s0 -> w <> [] -> Forall (fun c => isSpace c = false) w -> spaces s1 ->
  readWord (openFile (s0 ++ w ++ s1 ++ t)) = (w, mkIs (s1 ++ t) false false).
Proof.
  intros H0 Hw Fw H1. unfold readWord, openFile, isGood. cbn [isEof isFail isRest negb andb].
  rewrite skip_spaces by exact H0. destruct w as [|c w]; [congruence|]. cbn [app]. inversion Fw; subst.
  rewrite skip_none by assumption. change (c :: w ++ s1 ++ t) with ((c :: w) ++ s1 ++ t).
  destruct (spaces_head _ H1) as (c1 & s1' & -> & Hc1 & _).
  rewrite span_all.
  - reflexivity.
  - eapply Forall_impl; [|exact Fw]. cbn beta. intros a Ha. rewrite Ha. reflexivity.
  - cbn [app]. rewrite Hc1. reflexivity.
Qed.

Lemma horner_value ds acc : fold_left (fun a c => a * 10 + (c - 48)) ds acc = horner acc ds.
Proof. revert acc. induction ds as [|d ds IH]; intros acc; [reflexivity|]. cbn [fold_left horner]. rewrite IH. f_equal. lia. Qed.
Lemma digits_dig ds : Forall is_digit ds -> Forall (fun c => isDigit c = true) ds.
Proof. apply Forall_impl. unfold is_digit, isDigit. intros a H. rewrite andb_true_iff. lia. Qed.

(** what may follow a number *)
Definition stops (t : list Z) : Prop := match t with [] => False | c :: _ => isDigit c = false end.
Lemma readInt_ok s n tn t : Forall space s -> int_text n tn -> stops t ->
  readInt (mkIs (s ++ tn ++ t) false false) = (n, mkIs t false false).
Proof.
  intros Hs (Hr & ds & Hne & Hd & Hn) Ht. unfold readInt, isGood. cbn [isEof isFail isRest negb andb]. rewrite skip_spaces by exact Hs.
  assert (Hend : atEnd t = false) by (destruct t; [contradiction|reflexivity]).
  assert (Hst : match t with [] => True | c :: _ => isDigit c = false end) by (destruct t; [exact I|exact Ht]).
  assert (Ed : atEnd ds = false) by (destruct ds; [congruence|reflexivity]).
  assert (HI : in_int n = true) by (apply in_int_true; unfold INT_MIN, INT_MAX; lia).
  assert (Hsp : span isDigit (ds ++ t) = (ds, t)) by (apply span_all; [apply digits_dig; exact Hd|exact Hst]).
  destruct Hn as [[Hn [-> | ->]]|[Hn ->]].
  - destruct ds as [|c ds]; [congruence|]. inversion Hd as [|? ? Hc Hd']; subst. unfold is_digit in Hc. cbn [app].
    rewrite skip_none by (unfold isSpace; lia). replace (c =? 45) with false by lia. replace (c =? 43) with false by lia.
    change (c :: ds ++ t) with ((c :: ds) ++ t). rewrite Hsp, Ed. unfold digitsValue. rewrite horner_value, HI, Hend. reflexivity.
  - cbn [app]. rewrite skip_none by reflexivity. change (43 =? 45) with false. change (43 =? 43) with true. cbv iota beta.
    rewrite Hsp, Ed. unfold digitsValue. rewrite horner_value. rewrite Hn in HI. rewrite HI, Hend, Hn. reflexivity.
  - cbn [app]. rewrite skip_none by reflexivity. change (45 =? 45) with true. cbv iota beta.
    rewrite Hsp, Ed. unfold digitsValue. rewrite horner_value. rewrite Hn in HI. rewrite HI, Hend, Hn. reflexivity.
Qed.
Lemma dec_int n t : dec_text n t -> -2147483648 <= n <= 2147483647 -> int_text n t.
Proof.
  intros [[_ (A & B & C & _)]|[_ (ds & -> & A & B & C & _)]] Hr; (split; [exact Hr|]).
  - exists t. split; [exact A|]. split; [exact B|]. left. auto.
  - exists ds. split; [exact A|]. split; [exact B|]. right. split; [lia|reflexivity].
Qed.

Lemma spaces_stop s t : spaces s -> stops (s ++ t).
Proof.
  intros H. destruct (spaces_head _ H) as (c & s' & -> & Hc & _). cbn. unfold isSpace in Hc. unfold isDigit. lia.
Qed.

Definition read_rest (magic : list Z) (w h : Z) (t : list Z) : res (option (Z * Z * list Z)) :=
  if eqbl magic magicP4 then Ok (Some (w, h, readBinary (image_bytes w h) t))
  else do '(img, _) <- putLines (image_bytes w h) (lines [] t) (repeat 0 (Z.to_nat (image_bytes w h))) 0;
       Ok (Some (w, h, img)).
Lemma header_read magic w h hd : header magic w h hd -> picture_size w h -> read_as_header magic w h hd.
Proof.
  intros (hl & (s0 & s1 & s2 & tw & th & F0 & S1 & S2 & Dw & Dh & ->) & ->) (Hw & Hh & Hwh).
  exists s0, s1, s2, tw, th. split; [exact F0|]. split; [exact S1|]. split; [apply S2|]. split; [apply dec_int; [exact Dw|nia]|].
  split; [apply dec_int; [exact Dh|nia]|]. split; [destruct S2; contradiction|]. rewrite <- !app_assoc. reflexivity.
Qed.
Lemma size_read w h : picture_size w h -> read_size w h.
Proof. unfold picture_size, read_size. nia. Qed.
Lemma read_stops s2 th t : Forall space s2 -> (s2 = [] -> ~ is_digit (nthZ th 0)) -> th <> [] -> stops (s2 ++ th ++ t).
Proof.
  intros F H Hn. destruct s2 as [|c s2].
  - destruct th as [|c th]; [congruence|]. specialize (H eq_refl). cbn. change (nthZ (c :: th) 0) with c in H. unfold is_digit in H. unfold isDigit. lia.
  - apply (spaces_stop (c :: s2)). split; [discriminate|exact F].
Qed.
Lemma int_text_ne n t : int_text n t -> t <> [].
Proof. intros (_ & ds & Hne & _ & [[_ [-> | ->]]|[_ ->]]); [exact Hne|discriminate|discriminate]. Qed.
Lemma readPBM_read_as magic w h hd t : magic = magicP1 \/ magic = magicP4 -> read_as_header magic w h hd ->
  readPBM (hd ++ t) = (do p <- chk (w * h); do q <- chk (p + 7); if Z.quot q 8 <=? 0 then Ok None else read_rest magic w h t).
Proof.
  intros Hm (s0 & s1 & s2 & tw & th & F0 & S1 & S2 & Dw & Dh & Hst & ->). unfold readPBM.
  repeat rewrite <- app_assoc. cbn [app].
  rewrite readWord_ok; [|exact F0|destruct Hm as [-> | ->]; discriminate| |exact S1].
  2:{ destruct Hm as [-> | ->]; repeat constructor. }
  rewrite (readInt_ok s1 w tw); [|apply S1|exact Dw|apply read_stops; [exact S2|exact Hst|exact (int_text_ne h th Dh)]].
  rewrite (readInt_ok s2 h th); [|apply S2|exact Dh|reflexivity].
  replace (negb (eqbl magic magicP4) && negb (eqbl magic magicP1)) with false by (destruct Hm as [-> | ->]; reflexivity).
  unfold getlineNone, isGood. cbn [isEof isFail isRest negb andb]. change (10 =? 10) with true. cbv iota.
  cbn [isEof isFail isRest negb andb].
  unfold chk. destruct (in_int (w * h)); [|reflexivity]. cbn [bind]. destruct (in_int (w * h + 7)); [|reflexivity]. cbn [bind].
  destruct (Z.leb_spec (Z.quot (w * h + 7) 8) 0) as [|Hq]; [reflexivity|].
  assert (Hp : 0 < w * h + 7).
  { destruct (Z.lt_ge_cases 0 (w * h + 7)) as [|C]; [assumption|].
    pose proof (Z.quot_opp_l (w * h + 7) 8 ltac:(lia)). pose proof (Z.quot_pos (- (w * h + 7)) 8 ltac:(lia) ltac:(lia)). lia. }
  rewrite Z.quot_div_nonneg by lia. reflexivity.
Qed.
Lemma readPBM_header magic w h hd t : magic = magicP1 \/ magic = magicP4 -> read_size w h -> read_as_header magic w h hd ->
  readPBM (hd ++ t) = read_rest magic w h t.
Proof.
  intros Hm [Hs Hs'] Hh. rewrite (readPBM_read_as _ _ _ _ _ Hm Hh). rewrite !chk_ok by (unfold INT_MAX, INT_MIN; lia). cbn [bind].
  rewrite chk_ok by (unfold INT_MAX, INT_MIN; lia). cbn [bind]. rewrite Z.quot_div_nonneg by lia.
  replace ((w * h + 7) / 8 <=? 0) with false by lia. reflexivity.
Qed.

(** every file that does not begin with such a header is rejected *)
Lemma skip_inv t : exists s, t = s ++ skipSpace t /\ Forall space s /\ match skipSpace t with [] => True | c :: _ => isSpace c = false end.
Proof.
  induction t as [|c t (s & E & F & H)]; [exists []; split; [reflexivity|]; split; [constructor|exact I]|]. cbn [skipSpace].
  destruct (isSpace c) eqn:Ec.
  - exists (c :: s). split; [cbn [app]; congruence|]. split; [constructor; [apply isSpace_spec; exact Ec|exact F]|exact H].
  - exists []. split; [reflexivity|]. split; [constructor|exact Ec].
Qed.
Lemma span_inv f t : forall a b, span f t = (a, b) -> t = a ++ b /\ Forall (fun c => f c = true) a /\ match b with [] => True | c :: _ => f c = false end.
Proof.
  induction t as [|c t IH]; intros a b E; cbn [span] in E; [injection E as <- <-; split; [reflexivity|]; split; [constructor|exact I]|].
  destruct (f c) eqn:Ec.
  - destruct (span f t) as [a' b'] eqn:Es. injection E as <- <-. destruct (IH _ _ eq_refl) as (-> & F & H). split; [reflexivity|]. split; [constructor; assumption|exact H].
  - injection E as <- <-. split; [reflexivity|]. split; [constructor|exact Ec].
Qed.
Lemma readWord_inv t w s : readWord (openFile t) = (w, s) -> isGood s = true ->
  exists s0, t = s0 ++ w ++ isRest s /\ Forall space s0 /\ s = mkIs (isRest s) false false /\ exists c r, isRest s = c :: r /\ isSpace c = true.
Proof.
  unfold readWord, openFile. change (isGood (mkIs t false false)) with true. cbn [negb isRest]. destruct (skip_inv t) as (s0 & E0 & F0 & _).
  destruct (skipSpace t) as [|c t'] eqn:Ek; [intros E; injection E as <- <-; discriminate|].
  destruct (span (fun c => negb (isSpace c)) (c :: t')) as [a r] eqn:Es. intros E. injection E as <- <-. intros Hg.
  destruct (span_inv _ _ _ _ Es) as (E1 & _ & Hr). cbn [isRest]. exists s0. destruct r as [|x r]; [discriminate Hg|].
  split; [congruence|]. split; [exact F0|]. split; [reflexivity|]. exists x, r. split; [reflexivity|]. destruct (isSpace x); [reflexivity|discriminate Hr].
Qed.
Lemma digits_back ds : Forall (fun c => isDigit c = true) ds -> Forall is_digit ds.
Proof. apply Forall_impl. unfold is_digit, isDigit. intros a H. apply andb_true_iff in H. lia. Qed.
Lemma readInt_inv t n s : readInt (mkIs t false false) = (n, s) -> isGood s = true ->
  exists s0 tn, t = s0 ++ tn ++ isRest s /\ Forall space s0 /\ int_text n tn /\ s = mkIs (isRest s) false false /\
    match isRest s with [] => False | c :: _ => ~ is_digit c end.
Proof.
  unfold readInt. change (isGood (mkIs t false false)) with true. cbn [negb isRest]. destruct (skip_inv t) as (s0 & E0 & F0 & _).
  destruct (skipSpace t) as [|c t'] eqn:Ek; [intros E; injection E as <- <-; discriminate|].
  destruct (if c =? 45 then (true, t') else if c =? 43 then (false, t') else (false, c :: t')) as [neg t1] eqn:En.
  destruct (span isDigit t1) as [ds r] eqn:Es. destruct (span_inv _ _ _ _ Es) as (E1 & Fd & Hr).
  destruct ds as [|d ds']; [intros E; injection E as <- <-; cbn; destruct r; discriminate|]. set (ds := d :: ds') in *. change (atEnd ds) with false. cbv iota zeta.
  unfold digitsValue. rewrite horner_value.
  destruct (in_int (if neg then - horner 0 ds else horner 0 ds)) eqn:HI; [|intros E; injection E as <- <-; cbn; destruct r; discriminate].
  intros E. injection E as <- <-. intros Hg. cbn [isRest]. destruct r as [|x r]; [discriminate Hg|].
  apply in_int_true in HI. unfold INT_MIN, INT_MAX in HI.
  assert (Hx : ~ is_digit x) by (unfold isDigit in Hr; unfold is_digit; lia).
  destruct (c =? 45) eqn:E45; [|destruct (c =? 43) eqn:E43].
  - injection En as <- <-. apply Z.eqb_eq in E45. subst c. exists s0, (45 :: ds). split; [cbn [app]; congruence|]. split; [exact F0|].
    split; [|split; [reflexivity|exact Hx]]. split; [exact HI|]. exists ds. split; [discriminate|]. split; [apply digits_back; exact Fd|]. right. auto.
  - injection En as <- <-. apply Z.eqb_eq in E43. subst c. exists s0, (43 :: ds). split; [cbn [app]; congruence|]. split; [exact F0|].
    split; [|split; [reflexivity|exact Hx]]. split; [exact HI|]. exists ds. split; [discriminate|]. split; [apply digits_back; exact Fd|]. left. auto.
  - injection En as <- <-. exists s0, ds. split; [congruence|]. split; [exact F0|].
    split; [|split; [reflexivity|exact Hx]]. split; [exact HI|]. exists ds. split; [discriminate|]. split; [apply digits_back; exact Fd|]. left. auto.
Qed.
Lemma bad_word s : isGood s = false -> isGood (snd (readInt s)) = false.
Proof. intros H. unfold readInt. rewrite H. cbn. destruct (isEof s); reflexivity. Qed.
Lemma readPBM_other t : (exists magic w h hd r, (magic = magicP1 \/ magic = magicP4) /\ read_as_header magic w h hd /\ t = hd ++ r) \/ readPBM t = Ok None.
Proof.
  unfold readPBM. destruct (readWord (openFile t)) as [magic s1] eqn:E1. destruct (readInt s1) as [w s2] eqn:E2. destruct (readInt s2) as [h s3] eqn:E3.
  destruct (negb (eqbl magic magicP4) && negb (eqbl magic magicP1)) eqn:Em; [right; reflexivity|].
  assert (Hm : magic = magicP1 \/ magic = magicP4).
  { rewrite <- !eqbl_spec. destruct (eqbl magic magicP4), (eqbl magic magicP1); auto. }
  destruct (isGood (getlineNone s3)) eqn:G4; [|right; reflexivity]. left.
  assert (G3 : isGood s3 = true).
  { destruct (isGood s3) eqn:G; [reflexivity|]. unfold getlineNone in G4. rewrite G in G4. unfold isGood in G4. cbn in G4. destruct (isEof s3); discriminate G4. }
  assert (G2 : isGood s2 = true).
  { destruct (isGood s2) eqn:G; [reflexivity|]. apply bad_word in G. rewrite E3 in G. cbn in G. congruence. }
  assert (G1 : isGood s1 = true).
  { destruct (isGood s1) eqn:G; [reflexivity|]. apply bad_word in G. rewrite E2 in G. cbn in G. congruence. }
  destruct (readWord_inv _ _ _ E1 G1) as (s0 & Et & F0 & S1 & c & r & Er & Ec). rewrite S1 in E2.
  destruct (readInt_inv _ _ _ E2 G2) as (sp1 & tw & Et1 & F1 & Dw & S2 & Hd2). rewrite S2 in E3.
  destruct (readInt_inv _ _ _ E3 G3) as (sp2 & th & Et2 & F2 & Dh & S3 & _).
  unfold getlineNone in G4. rewrite G3 in G4. cbn [negb] in G4. destruct (isRest s3) as [|x r3] eqn:R3; [discriminate G4|].
  destruct (x =? 10) eqn:Ex; [|discriminate G4]. apply Z.eqb_eq in Ex. subst x.
  exists magic, w, h, (s0 ++ magic ++ sp1 ++ tw ++ sp2 ++ th ++ [10]), r3. split; [exact Hm|]. split.
  - exists s0, sp1, sp2, tw, th. split; [exact F0|]. split; [split; [|exact F1]|].
    + intros ->. cbn [app] in Et1. rewrite Er in Et1. destruct Dw as (_ & ds & Hne & Hd & Hs). apply isSpace_spec in Ec. unfold space in Ec. cbn [In] in Ec.
      destruct Hs as [[_ [-> | ->]]|[_ ->]]; [|injection Et1 as -> _; lia|injection Et1 as -> _; lia].
      destruct ds as [|d ds]; [congruence|]. injection Et1 as -> _. inversion Hd; subst. unfold is_digit in *. lia.
    + split; [exact F2|]. split; [exact Dw|]. split; [exact Dh|]. split; [|reflexivity]. intros ->. cbn [app] in Et2. rewrite Et2 in Hd2.
      pose proof (int_text_ne _ _ Dh). destruct th as [|y th]; [congruence|]. exact Hd2.
  - rewrite <- !app_assoc. cbn [app]. rewrite Et, Et1, Et2. reflexivity.
Qed.

(** ** Lines *)
Lemma lines_line cur l t : ~ In 10 l -> lines cur (l ++ 10 :: t) = (cur ++ l) :: lines [] t.
Proof.
  revert cur. induction l as [|c l IH]; intros cur H.
  - cbn [app lines]. change (10 =? 10) with true. cbv iota. rewrite app_nil_r. reflexivity.
  - cbn [app lines]. replace (c =? 10) with false by (symmetry; apply Z.eqb_neq; intros ->; apply H; left; reflexivity).
    rewrite IH by (intros X; apply H; right; exact X). rewrite <- app_assoc. reflexivity.
Qed.
Lemma lines_last cur l : ~ In 10 l -> cur ++ l <> [] -> lines cur l = [cur ++ l].
Proof.
  revert cur. induction l as [|c l IH]; intros cur H Hne.
  - cbn [lines]. rewrite app_nil_r in *. destruct cur; [congruence|reflexivity].
  - cbn [lines]. replace (c =? 10) with false by (symmetry; apply Z.eqb_neq; intros ->; apply H; left; reflexivity).
    rewrite IH; [|intros X; apply H; right; exact X|destruct cur; discriminate]. rewrite <- app_assoc. reflexivity.
Qed.
Lemma lines_flat ls t : Forall no_eol ls -> lines [] (flat_map (fun l => l ++ [10]) ls ++ t) = ls ++ lines [] t.
Proof.
  induction 1 as [|l ls H _ IH]; [reflexivity|]. cbn [flat_map]. repeat rewrite <- app_assoc. cbn [app].
  rewrite lines_line by exact H. rewrite IH. reflexivity.
Qed.
Lemma lines_text ls t : text_of ls t -> lines [] t = ls.
Proof.
  intros [F [-> | (ls' & l & -> & Hl & ->)]].
  - rewrite <- (app_nil_r (flat_map _ _)), lines_flat by exact F. cbn. apply app_nil_r.
  - apply Forall_app in F. destruct F as [F F1]. inversion F1; subst. rewrite lines_flat by exact F.
    f_equal. apply lines_last; [assumption|exact Hl].
Qed.

(** ** Pixels *)
Lemma img_bit_set img i b j : 0 <= i < 8 * zlen img -> 0 <= j -> 
  img_bit (blit img (i / 8) [u8 (Z.lor (nthZ img (i / 8)) (Z.shiftl (if b : bool then 1 else 0) (7 - i mod 8)))]) j =
  img_bit img j || (b && (j =? i)).
Proof.
  intros Hi Hj. unfold img_bit. rewrite nthZ_blit by (change (zlen [_]) with 1; lia).
  change (zlen [_]) with 1. destruct (Z.eq_dec (j / 8) (i / 8)) as [E|E].
  - replace ((i / 8 <=? j / 8) && (j / 8 <? i / 8 + 1)) with true by lia. rewrite E. replace (i / 8 - i / 8) with 0 by lia.
    match goal with |- context[nthZ [?v] 0] => change (nthZ [v] 0) with v end.
    rewrite u8_testbit by lia. replace (7 - j mod 8 <? 8) with true by lia. rewrite Z.lor_spec, Z.shiftl_spec by lia. f_equal.
    destruct (Z.eqb_spec j i) as [->|Hne].
    + replace (7 - i mod 8 - (7 - i mod 8)) with 0 by lia. destruct b; reflexivity.
    + rewrite andb_false_r. destruct b; [|apply Z.bits_0].
      destruct (Z.lt_trichotomy (7 - j mod 8 - (7 - i mod 8)) 0) as [H|[H|H]]; [apply Z.testbit_neg_r; exact H|lia|].
      apply Z.bits_above_log2; [lia|change (Z.log2 1) with 0; lia].
  - replace ((i / 8 <=? j / 8) && (j / 8 <? i / 8 + 1)) with false by lia.
    replace (j =? i) with false by lia. rewrite andb_false_r, orb_false_r. reflexivity.
Qed.

Lemma nth_snoc (px : list bool) b i : 0 <= i -> 
  nth (Z.to_nat i) (px ++ [b]) false = nth (Z.to_nat i) px false || (b && (i =? zlen px)).
Proof.
  intros Hi. destruct (Z.lt_trichotomy i (zlen px)) as [H|[H|H]].
  - replace (i =? zlen px) with false by lia. rewrite andb_false_r, orb_false_r. apply app_nth1. unfold zlen in H. lia.
  - replace (i =? zlen px) with true by lia. rewrite andb_true_r. unfold zlen in H.
    rewrite app_nth2 by lia. rewrite (nth_overflow px) by lia. replace (Z.to_nat i - length px)%nat with 0%nat by lia. reflexivity.
  - replace (i =? zlen px) with false by lia. rewrite andb_false_r, orb_false_r. unfold zlen in H.
    rewrite !nth_overflow; [reflexivity|lia|rewrite app_length; cbn [length]; lia].
Qed.

Lemma put_pixel n px img c : picture n px img -> zlen px < 8 * n -> pixel_char c = true ->
  exists img', wr img (zlen px / 8) (u8 (Z.lor (nthZ img (zlen px / 8)) (Z.shiftl (c - 48) (7 - zlen px mod 8)))) = Ok img' /\
    picture n (px ++ [c =? 49]) img'.
Proof.
  intros (HL & HB & HP) Hlt Hc. pose proof (zlen_nonneg px) as H0.
  replace (c - 48) with (if c =? 49 then 1 else 0) by (unfold pixel_char in Hc; destruct (Z.eqb_spec c 49); lia).
  unfold wr. rewrite wr_slice_ok by (change (zlen [_]) with 1; lia). eexists. split; [reflexivity|]. split; [|split].
  - rewrite zlen_blit; [exact HL|lia|change (zlen [_]) with 1; lia].
  - apply bytes_blit; [exact HB|]. constructor; [apply u8_byte|constructor].
  - intros i Hi. rewrite img_bit_set by lia. rewrite HP, nth_snoc by lia. reflexivity.
Qed.

Lemma firstn_zlen {A} (l : list A) k : zlen l <= k -> firstn (Z.to_nat k) l = l.
Proof. intros H. apply firstn_all2. unfold zlen in H. lia. Qed.

Lemma putChars_ok n line : forall px img, picture n px img -> zlen px < 8 * n -> 8 * n <= INT_MAX ->
  exists img', let px' := firstn (Z.to_nat (8 * n)) (px ++ line_pixels line) in
    putChars n line img (zlen px) = Ok (img', zlen px') /\ picture n px' img'.
Proof.
  induction line as [|c t IH]; intros px img HP Hlt Hmax.
  - exists img. cbn [line_pixels filter map putChars]. rewrite app_nil_r, firstn_zlen by lia. split; [reflexivity|exact HP].
  - pose proof (zlen_nonneg px) as H0. cbn [putChars]. change ((c =? 48) || (c =? 49)) with (pixel_char c).
    destruct (pixel_char c) eqn:Hc.
    + rewrite rd_ok by (destruct HP as [HL _]; lia). cbn [bind].
      destruct (put_pixel n px img c HP Hlt Hc) as (img1 & E1 & HP1). rewrite E1. cbn [bind].
      rewrite chk_ok by (unfold INT_MIN; lia). cbn [bind].
      assert (EL : zlen px + 1 = zlen (px ++ [c =? 49])) by (rewrite zlen_app, zlen_1; lia).
      unfold line_pixels. cbn [filter]. rewrite Hc. cbn [map].
      replace (px ++ (c =? 49) :: map (fun c0 => c0 =? 49) (filter pixel_char t)) with ((px ++ [c =? 49]) ++ line_pixels t)
        by (rewrite <- app_assoc; reflexivity).
      destruct (Z.leb_spec (n * 8) (zlen px + 1)).
      * assert (ET : firstn (Z.to_nat (8 * n)) ((px ++ [c =? 49]) ++ line_pixels t) = px ++ [c =? 49]).
        { rewrite firstn_app. replace (Z.to_nat (8 * n) - length (px ++ [(c =? 49)%Z]))%nat with 0%nat by (unfold zlen in *; lia).
          rewrite firstn_O, app_nil_r. apply firstn_zlen. lia. }
        exists img1. cbv zeta. rewrite ET, EL. split; [reflexivity|exact HP1].
      * rewrite EL in *. apply IH; [exact HP1|lia|exact Hmax].
    + cbn [bind]. replace (n * 8 <=? zlen px) with false by lia. unfold line_pixels. cbn [filter]. rewrite Hc.
      apply IH; assumption.
Qed.
Lemma putChars_full n c t px img : picture n px img -> zlen px = 8 * n -> 
  putChars n (c :: t) img (zlen px) = if pixel_char c then UB else Ok (img, zlen px).
Proof.
  intros (HL & _) HF. cbn [putChars]. change ((c =? 48) || (c =? 49)) with (pixel_char c). destruct (pixel_char c).
  - rewrite rd_ub by (rewrite HL, HF; pose proof (zlen_nonneg img); lia). reflexivity.
  - cbn [bind]. replace (n * 8 <=? zlen px) with true by lia. reflexivity.
Qed.

Definition overruns (n k : Z) (ls : list (list Z)) : Prop :=
  exists before c l after, ls = before ++ (c :: l) :: after /\ pixel_char c = true /\
    8 * n <= k + zlen (pixels_of before).
Lemma pixels_cons l ls : pixels_of (l :: ls) = (if data_line l then line_pixels l else []) ++ pixels_of ls.
Proof. unfold pixels_of. cbn [filter]. destruct (data_line l); reflexivity. Qed.
Lemma overruns_cons n k l ls : overruns n k (l :: ls) <->
  (exists c t, l = c :: t /\ pixel_char c = true /\ 8 * n <= k) \/
  overruns n (k + zlen (if data_line l then line_pixels l else [])) ls.
Proof.
  split.
  - intros ([|b before] & c & t & after & E & Hc & Hk).
    + injection E as -> ->. left. exists c, t. change (pixels_of []) with (@nil bool) in Hk. rewrite zlen_nil in Hk. split; [reflexivity|]. split; [exact Hc|]. lia.
    + injection E as -> ->. right. exists before, c, t, after. split; [reflexivity|]. split; [exact Hc|].
      rewrite pixels_cons, zlen_app in Hk. lia.
  - intros [(c & t & -> & Hc & Hk)|(before & c & t & after & -> & Hc & Hk)].
    + exists [], c, t, ls. split; [reflexivity|]. split; [exact Hc|]. change (pixels_of []) with (@nil bool). rewrite zlen_nil. lia.
    + exists (l :: before), c, t, after. split; [reflexivity|]. split; [exact Hc|]. rewrite pixels_cons, zlen_app. lia.
Qed.
Lemma skip_line l : (atEnd l || (nthZ l 0 =? 35)) = negb (data_line l).
Proof. destruct l as [|c t]; [reflexivity|]. cbn [atEnd orb data_line]. rewrite negb_involutive. reflexivity. Qed.

Lemma firstn_more {A} k (a b : list A) : firstn k (firstn k a ++ b) = firstn k (a ++ b).
Proof.
  rewrite !firstn_app, firstn_firstn, Nat.min_id. rewrite firstn_length.
  destruct (Nat.le_gt_cases k (length a)).
  - rewrite Nat.min_l by lia. replace (k - k)%nat with 0%nat by lia. replace (k - length a)%nat with 0%nat by lia. reflexivity.
  - rewrite Nat.min_r by lia. reflexivity.
Qed.
Lemma zlen_firstn_min {A} (l : list A) k : 0 <= k -> zlen (firstn (Z.to_nat k) l) = Z.min k (zlen l).
Proof. intros H. unfold zlen. rewrite firstn_length. lia. Qed.

Lemma overruns_cap n k k' ls : (8 * n <= k <-> 8 * n <= k') -> (k < 8 * n -> k = k') -> overruns n k ls <-> overruns n k' ls.
Proof.
  intros H E. split; intros (b & c & l & a & -> & Hc & Hk); exists b, c, l, a; (split; [reflexivity|split; [exact Hc|]]);
  pose proof (zlen_nonneg (pixels_of b)); lia.
Qed.

Lemma putLines_spec n ls : forall px img, picture n px img -> zlen px <= 8 * n -> 8 * n <= INT_MAX -> 0 < n ->
  (overruns n (zlen px) ls /\ putLines n ls img (zlen px) = UB) \/
  (~ overruns n (zlen px) ls /\ exists img', let px' := firstn (Z.to_nat (8 * n)) (px ++ pixels_of ls) in
     putLines n ls img (zlen px) = Ok (img', zlen px') /\ picture n px' img').
Proof.
  induction ls as [|l ls IH]; intros px img HP Hle Hmax Hn.
  - right. split; [intros ([|] & ? & ? & ? & E & _); discriminate|]. exists img. cbn [pixels_of filter flat_map putLines].
    rewrite app_nil_r, firstn_zlen by lia. split; [reflexivity|exact HP].
  - cbn [putLines]. rewrite skip_line, overruns_cons. destruct (data_line l) eqn:Hd; cbn [negb].
    + destruct (Z.eq_dec (zlen px) (8 * n)) as [HF|HF].
      * destruct l as [|c t]; [discriminate|]. rewrite putChars_full with (px := px) (1 := HP) (2 := HF).
        destruct (pixel_char c) eqn:Hc.
        -- left. split; [left; exists c, t; repeat split; auto; lia|reflexivity].
        -- cbn [bind]. 
           assert (EQ : overruns n (zlen px + zlen (line_pixels (c :: t))) ls <-> overruns n (zlen px) ls).
           { apply overruns_cap; pose proof (zlen_nonneg (line_pixels (c :: t))); lia. }
           rewrite EQ. rewrite pixels_cons, Hd.
           assert (EF : firstn (Z.to_nat (8 * n)) (px ++ line_pixels (c :: t) ++ pixels_of ls) = firstn (Z.to_nat (8 * n)) (px ++ pixels_of ls)).
           { rewrite !firstn_app. replace (Z.to_nat (8 * n) - length px)%nat with 0%nat by (unfold zlen in HF; lia). reflexivity. }
           rewrite EF. destruct (IH px img HP Hle Hmax Hn) as [[O E]|[O X]].
           ++ left. split; [right; exact O|exact E].
           ++ right. split; [|exact X]. intros [(c' & t' & E & Hc' & _)|]; [injection E as <- <-; congruence|auto].
      * destruct (putChars_ok n l px img HP ltac:(lia) Hmax) as (img1 & E1 & HP1). rewrite E1. cbn [bind].
        set (px1 := firstn (Z.to_nat (8 * n)) (px ++ line_pixels l)) in *.
        assert (L1 : zlen px1 = Z.min (8 * n) (zlen px + zlen (line_pixels l))) by (unfold px1; rewrite zlen_firstn_min, zlen_app by lia; reflexivity).
        assert (EQ : overruns n (zlen px + zlen (line_pixels l)) ls <-> overruns n (zlen px1) ls) by (apply overruns_cap; lia).
        rewrite EQ. rewrite pixels_cons, Hd.
        assert (EF : firstn (Z.to_nat (8 * n)) (px ++ line_pixels l ++ pixels_of ls) = firstn (Z.to_nat (8 * n)) (px1 ++ pixels_of ls)).
        { unfold px1. rewrite firstn_more, <- app_assoc. reflexivity. }
        rewrite EF. destruct (IH px1 img1 HP1 ltac:(lia) Hmax Hn) as [[O E]|[O X]].
        -- left. split; [right; exact O|exact E].
        -- right. split; [|exact X]. intros [(c' & t' & E & Hc' & ?)|]; [lia|auto].
    + rewrite zlen_nil, Z.add_0_r. rewrite pixels_cons, Hd. cbn [app].
      destruct (IH px img HP Hle Hmax Hn) as [[O E]|[O X]].
      * left. split; [right; exact O|exact E].
      * right. split; [|exact X]. intros [(c' & t' & -> & Hc' & ?)|]; [|auto].
        unfold pixel_char in Hc'. cbn [data_line] in Hd. lia.
Qed.

Lemma picture_blank n : 0 <= n -> picture n [] (repeat 0 (Z.to_nat n)).
Proof.
  intros H. split; [rewrite zlen_repeat; lia|]. split; [apply bytes_repeat0|].
  intros i Hi. unfold img_bit, nthZ. rewrite nth_repeat. rewrite Z.bits_0. destruct (Z.to_nat i); reflexivity.
Qed.
Lemma picture_firstn n px img : picture n (firstn (Z.to_nat (8 * n)) px) img <-> picture n px img.
Proof.
  unfold picture. split; intros (A & B & C); (split; [exact A|split; [exact B|]]); intros i Hi; specialize (C i Hi);
  rewrite nth_firstn_lt in * by lia; exact C.
Qed.
Lemma overrun_0 n ls : overrun n ls <-> overruns n 0 ls.
Proof. unfold overrun, overruns. reflexivity. Qed.

Lemma readPBM_text w h hd ls t : read_size w h -> read_as_header magicP1 w h hd -> text_of ls t ->
  let n := image_bytes w h in
  (overrun n ls /\ readPBM (hd ++ t) = UB) \/
  (~ overrun n ls /\ exists img, readPBM (hd ++ t) = Ok (Some (w, h, img)) /\ picture n (pixels_of ls) img).
Proof.
  intros Hp Hh Ht n. rewrite (readPBM_header _ _ _ _ _ (or_introl eq_refl) Hp Hh). unfold read_rest.
  change (eqbl magicP1 magicP4) with false. cbv iota. rewrite (lines_text _ _ Ht). fold n.
  destruct Hp as (Hw & Hwh). assert (Hn : 0 < n) by (unfold n, image_bytes; lia).
  assert (Hmax : 8 * n <= INT_MAX) by (unfold n, image_bytes, INT_MAX; lia).
  rewrite overrun_0. destruct (putLines_spec n ls [] _ (picture_blank n ltac:(lia)) ltac:(rewrite zlen_nil; lia) Hmax Hn) as [[O E]|[O (img & E & P)]];
  change (zlen (@nil bool)) with 0 in *; rewrite E; cbn [bind].
  - left. auto.
  - right. split; [exact O|]. exists img. split; [reflexivity|]. cbn [app] in P. apply (proj1 (picture_firstn _ _ _)) in P. exact P.
Qed.

(** ** What [writePBM] writes *)
Fixpoint rows (h cols : nat) (d : list Z) : list (list Z) :=
  match h, d with
  | O, _ | _, [] => []
  | S k, _ => firstn cols d :: rows k cols (skipn cols d)
  end.
Definition row_text (r : list Z) : list Z := flat_map byteText r.

Lemma byteText_chars b : Forall (fun c => c = 32 \/ pixel_char c = true) (byteText b).
Proof.
  unfold byteText. cbn [flat_map app].
  repeat (constructor; [try (left; reflexivity); right; match goal with |- context[if ?x then _ else _] => destruct x end; reflexivity|]).
  constructor.
Qed.
Lemma byteText_pixels b : line_pixels (byteText b) = byte_bits b.
Proof.
  unfold byteText, byte_bits. cbn [flat_map app map].
  assert (E : forall k r, 0 <= k -> line_pixels ((if Z.land (Z.shiftr b k) 1 =? 0 then 48 else 49) :: 32 :: r) = Z.testbit b k :: line_pixels r).
  { intros k r Hk. unfold line_pixels.
    assert (Z.land (Z.shiftr b k) 1 = if Z.testbit b k then 1 else 0) as ->.
    { change 1 with (Z.ones 1) at 1. rewrite Z.land_ones by lia. change (2 ^ 1) with 2. rewrite Zmod_odd.
      rewrite <- Z.bit0_odd, Z.shiftr_spec by lia. rewrite Z.add_0_l. reflexivity. }
    destruct (Z.testbit b k); reflexivity. }
  rewrite !E by lia. reflexivity.
Qed.
Lemma line_pixels_app a b : line_pixels (a ++ b) = line_pixels a ++ line_pixels b.
Proof. unfold line_pixels. rewrite filter_app, map_app. reflexivity. Qed.
Lemma row_pixels r : line_pixels (row_text r) = flat_map byte_bits r.
Proof.
  induction r as [|b r IH]; [reflexivity|]. unfold row_text. cbn [flat_map]. rewrite line_pixels_app, byteText_pixels.
  f_equal. exact IH.
Qed.
Lemma row_no_eol r : no_eol (row_text r).
Proof.
  unfold no_eol, row_text. rewrite in_flat_map. intros (b & _ & H).
  pose proof (byteText_chars b) as F. rewrite Forall_forall in F. destruct (F _ H) as [E|E]; discriminate.
Qed.
Lemma row_head r : r <> [] -> exists c t, row_text r = c :: t /\ pixel_char c = true.
Proof.
  destruct r as [|b r]; [congruence|]. intros _. unfold row_text. cbn [flat_map].
  unfold byteText at 1. cbn [flat_map app]. eexists _, _. split; [reflexivity|].
  destruct (Z.land (Z.shiftr b 7) 1 =? 0); reflexivity.
Qed.

Lemma skipn_at (l : list Z) i : 0 <= i < zlen l -> skipn (Z.to_nat i) l = nthZ l i :: skipn (Z.to_nat (i + 1)) l.
Proof.
  intros H. replace (Z.to_nat (i + 1)) with (S (Z.to_nat i)) by lia. unfold nthZ.
  assert (Hn : (Z.to_nat i < length l)%nat) by (unfold zlen in H; lia). clear H. generalize dependent (Z.to_nat i). clear i.
  induction l as [|x l IH]; intros n Hn; [cbn [length] in Hn; lia|]. destruct n as [|n]; [reflexivity|].
  cbn [skipn nth]. apply IH. cbn [length] in Hn. lia.
Qed.
Lemma skipn_add {A} (l : list A) a b : skipn a (skipn b l) = skipn (b + a) l.
Proof.
  revert l. induction b as [|b IH]; intros l; [reflexivity|]. destruct l as [|x l]; [rewrite !skipn_nil; reflexivity|].
  cbn [Nat.add skipn]. apply IH.
Qed.
Lemma triple {A B C} (a a' : A) (b b' : B) (c c' : C) : a = a' -> b = b' -> c = c' -> (a, b, c) = (a', b', c').
Proof. intros -> -> ->. reflexivity. Qed.
Lemma writeRow_spec n data : forall i, 0 <= i <= zlen data ->
  writeRow n data i = (row_text (firstn n (skipn (Z.to_nat i) data)), Z.min (zlen data) (i + Z.of_nat n), i + Z.of_nat n <=? zlen data).
Proof.
  induction n as [|n IH]; intros i Hi.
  - cbn [writeRow firstn]. apply triple; [reflexivity|lia|symmetry; apply Z.leb_le; lia].
  - cbn [writeRow]. destruct (Z.leb_spec (zlen data) i).
    + replace i with (zlen data) by lia. rewrite skipn_all2 by (unfold zlen; lia). rewrite firstn_nil.
      apply triple; [reflexivity|lia|symmetry; apply Z.leb_gt; lia].
    + rewrite IH by lia. rewrite (skipn_at data i) by lia. cbn [firstn]. apply triple; [reflexivity|lia|f_equal; lia].
Qed.
Lemma text_cons l ls t : no_eol l -> text_of ls t -> text_of (l :: ls) (l ++ 10 :: t).
Proof.
  intros Hl [F [-> | (ls' & l' & -> & Hne & ->)]]; (split; [constructor; assumption|]).
  - left. cbn [flat_map]. rewrite <- app_assoc. reflexivity.
  - right. exists (l :: ls'), l'. split; [reflexivity|]. split; [exact Hne|]. cbn [flat_map]. repeat rewrite <- app_assoc. reflexivity.
Qed.
Lemma writeRows_spec cols data : (1 <= cols)%nat -> forall h i, 0 <= i <= zlen data ->
  exists t, writeRows h cols data i = (t, i + Z.of_nat h * Z.of_nat cols <=? zlen data) /\
    text_of (map row_text (rows h cols (skipn (Z.to_nat i) data))) t.
Proof.
  intros Hc. induction h as [|h IH]; intros i Hi.
  - exists []. cbn [writeRows rows map]. split; [f_equal; symmetry; apply Z.leb_le; lia|]. split; [constructor|left; reflexivity].
  - cbn [writeRows]. rewrite writeRow_spec by exact Hi.
    destruct (Z.leb_spec (i + Z.of_nat cols) (zlen data)) as [Hle|Hgt].
    + rewrite Z.min_r by lia. destruct (IH (i + Z.of_nat cols) ltac:(lia)) as (t & E & T). rewrite E. eexists. split; [f_equal; f_equal; lia|].
      assert (ER : rows (S h) cols (skipn (Z.to_nat i) data) = firstn cols (skipn (Z.to_nat i) data) :: rows h cols (skipn (Z.to_nat (i + Z.of_nat cols)) data)).
      { rewrite (skipn_at data i) at 1 by lia. cbn [rows]. rewrite <- (skipn_at data i) by lia. f_equal.
        rewrite skipn_add. f_equal. f_equal. lia. }
      rewrite ER. cbn [map]. apply text_cons; [apply row_no_eol|exact T].
    + exists (row_text (firstn cols (skipn (Z.to_nat i) data))). split; [f_equal; symmetry; apply Z.leb_gt; nia|].
      destruct (Z.eq_dec i (zlen data)) as [->|Hne].
      * rewrite skipn_all2 by (unfold zlen; lia). rewrite firstn_nil. cbn [rows map]. split; [constructor|left; reflexivity].
      * rewrite (skipn_at data i) by lia. cbn [rows].
        rewrite <- (skipn_at data i) by lia. rewrite (skipn_all2 (n := cols)) by (rewrite skipn_length; unfold zlen in *; lia).
        assert (rows h cols [] = []) as -> by (destruct h; reflexivity). cbn [map].
        split; [constructor; [apply row_no_eol|constructor]|]. right. exists [], (row_text (firstn cols (skipn (Z.to_nat i) data))).
        split; [reflexivity|]. split; [|reflexivity].
        destruct (row_head (firstn cols (skipn (Z.to_nat i) data))) as (c & t & -> & _); [|discriminate].
        rewrite (skipn_at data i) by lia. destruct cols; [lia|discriminate].
Qed.

Lemma rows_nonempty h cols d : (1 <= cols)%nat -> Forall (fun r => r <> []) (rows h cols d).
Proof.
  intros Hc. revert d. induction h as [|h IH]; intros d; [constructor|]. destruct d as [|x d]; [constructor|].
  cbn [rows]. constructor; [destruct cols; [lia|discriminate]|apply IH].
Qed.
Lemma rows_pixels rs : Forall (fun r => r <> []) rs -> pixels_of (map row_text rs) = flat_map byte_bits (concat rs).
Proof.
  induction 1 as [|r rs Hr _ IH]; [reflexivity|]. cbn [map concat]. rewrite pixels_cons, IH, flat_map_app, row_pixels.
  destruct (row_head r Hr) as (c & t & E & Hc). rewrite E. cbn [data_line].
  replace (c =? 35) with false by (unfold pixel_char in Hc; lia). reflexivity.
Qed.
Lemma rows_concat h cols d : concat (rows h cols d) = firstn (h * cols) d.
Proof.
  revert d. induction h as [|h IH]; intros d; [reflexivity|]. destruct d as [|x d].
  - cbn [rows concat]. rewrite firstn_nil. reflexivity.
  - cbn [rows concat]. rewrite IH. cbn [Nat.mul]. rewrite <- (firstn_skipn cols (x :: d)) at 3.
    rewrite firstn_app. f_equal.
    + rewrite firstn_firstn. f_equal. lia.
    + rewrite firstn_length. destruct (Nat.le_gt_cases cols (length (x :: d))).
      * rewrite Nat.min_l by lia. f_equal. lia.
      * rewrite skipn_all2 by lia. rewrite !firstn_nil. reflexivity.
Qed.
Lemma rows_firstn h cols d k : (k <= h)%nat -> firstn k (rows h cols d) = rows k cols d.
Proof.
  revert k d. induction h as [|h IH]; intros k d Hk; [replace k with 0%nat by lia; reflexivity|].
  destruct k as [|k]; [reflexivity|]. destruct d as [|x d]; [reflexivity|]. cbn [rows firstn]. f_equal. apply IH. lia.
Qed.
Lemma rows_length h cols d k : (1 <= cols)%nat -> (k < length (rows h cols d) <-> k < h /\ k * cols < length d)%nat.
Proof.
  intros Hc. revert k d. induction h as [|h IH]; intros k d; [cbn; lia|]. destruct d as [|x d]; [cbn; lia|].
  cbn [rows]. change (length (firstn cols (x :: d) :: rows h cols (skipn cols (x :: d)))) with (S (length (rows h cols (skipn cols (x :: d))))).
  destruct k as [|k]; [cbn [length]; lia|].
  specialize (IH k (skipn cols (x :: d))). rewrite skipn_length in IH. lia.
Qed.

Lemma bits_len d : zlen (flat_map byte_bits d) = 8 * zlen d.
Proof. induction d as [|b d IH]; [reflexivity|]. cbn [flat_map]. rewrite zlen_app, IH, zlen_cons. change (zlen (byte_bits b)) with 8. lia. Qed.

Lemma rows_overrun n h cols d : (1 <= cols)%nat ->
  overrun n (map row_text (rows h cols d)) <-> exists k, 0 <= k < Z.of_nat h /\ n <= k * Z.of_nat cols < zlen d.
Proof.
  intros Hc. pose proof (rows_nonempty h cols d Hc) as NE. split.
  - intros (before & c & l & after & E & _ & HN). exists (zlen before).
    assert (HL : (length before < length (rows h cols d))%nat).
    { rewrite <- (map_length row_text (rows h cols d)), E, app_length. cbn [length]. lia. }
    pose proof HL as HL'. apply (rows_length h cols d (length before) Hc) in HL. unfold zlen.
    assert (EB : before = map row_text (rows (length before) cols d)).
    { rewrite <- (rows_firstn h) by lia. rewrite <- firstn_map, E, firstn_app, firstn_all, Nat.sub_diag, app_nil_r. reflexivity. }
    rewrite EB, rows_pixels, bits_len, rows_concat in HN by (apply rows_nonempty; exact Hc).
    unfold zlen in HN. rewrite firstn_length in HN. nia.
  - intros (k & Hk & HN & Hd). set (kn := Z.to_nat k).
    assert (HL : (kn < length (rows h cols d))%nat) by (apply rows_length; [exact Hc|]; unfold zlen in Hd; unfold kn; nia).
    destruct (nth_error (rows h cols d) kn) as [r|] eqn:En; [|apply nth_error_None in En; lia].
    apply nth_error_split in En. destruct En as (l1 & l2 & E & L1). rewrite E.
    assert (EB : l1 = rows kn cols d).
    { rewrite <- (rows_firstn h) by lia. rewrite E, <- L1, firstn_app, firstn_all, Nat.sub_diag, app_nil_r. reflexivity. }
    rewrite E in NE. apply Forall_app in NE. destruct NE as [_ NE]. pose proof (Forall_inv NE) as Hr.
    destruct (row_head r ltac:(assumption)) as (c & t & Er & Hcx).
    exists (map row_text l1), c, t, (map row_text l2). rewrite map_app. cbn [map]. rewrite Er. split; [reflexivity|]. split; [exact Hcx|].
    rewrite EB, rows_pixels, bits_len, rows_concat by (apply rows_nonempty; exact Hc).
    unfold zlen in *. rewrite firstn_length. unfold kn. nia.
Qed.

(** ** Pictures and bytes *)
Lemma img_bit_bits d i : 0 <= i -> img_bit d i = nth (Z.to_nat i) (flat_map byte_bits d) false.
Proof.
  revert i. induction d as [|b d IH]; intros i Hi.
  - rewrite img_bit_nil. destruct (Z.to_nat i); reflexivity.
  - cbn [flat_map]. change (b :: d) with ([b] ++ d). rewrite img_bit_app by lia. change (8 * zlen [b]) with 8.
    destruct (Z.ltb_spec i 8).
    + rewrite img_bit_one, app_nth1 by (try (change (length (byte_bits b)) with 8%nat); lia). symmetry.
      apply (byte_bits_at b i). lia.
    + rewrite IH by lia. rewrite app_nth2 by (change (length (byte_bits b)) with 8%nat; lia). f_equal.
      change (length (byte_bits b)) with 8%nat. lia.
Qed.
Lemma byte_ext a b : is_byte a -> is_byte b -> (forall k, 0 <= k < 8 -> Z.testbit a k = Z.testbit b k) -> a = b.
Proof.
  intros Ha Hb H. apply Z.bits_inj'. intros k Hk. destruct (Z.lt_ge_cases k 8); [apply H; lia|].
  rewrite !byte_high by (assumption || lia). reflexivity.
Qed.
Lemma picture_nth n px img i : picture n px img -> 0 <= i < n -> forall k, 0 <= k < 8 ->
  Z.testbit (nthZ img i) k = nth (Z.to_nat (8 * i + (7 - k))) px false.
Proof.
  intros (_ & _ & HP) Hi k Hk. specialize (HP (8 * i + (7 - k)) ltac:(lia)). unfold img_bit in HP.
  replace ((8 * i + (7 - k)) / 8) with i in HP by lia. replace (7 - (8 * i + (7 - k)) mod 8) with k in HP by lia. exact HP.
Qed.
Lemma picture_fitted n m data img : bytes data -> n <= m -> picture n (flat_map byte_bits (firstn (Z.to_nat m) data)) img -> fitted n data img.
Proof.
  intros Hb Hm HP. split; [apply HP|]. intros i Hi. apply byte_ext.
  - apply bytes_nthZ. apply HP.
  - apply bytes_nthZ. exact Hb.
  - intros k Hk. rewrite (picture_nth n _ _ i HP Hi k Hk). rewrite <- img_bit_bits by lia. unfold img_bit.
    replace ((8 * i + (7 - k)) / 8) with i by lia. replace (7 - (8 * i + (7 - k)) mod 8) with k by lia. f_equal.
    unfold nthZ. apply nth_firstn_lt. lia.
Qed.

(** ** The two writers, read back *)
Lemma spaces_1 c : space c -> spaces [c].
Proof. intros H. split; [discriminate|constructor; [exact H|constructor]]. Qed.
Lemma pbmHeader_header magic w h : header magic w h (pbmHeader magic w h).
Proof.
  exists (magic ++ [10] ++ decimal w ++ [32] ++ decimal h). split.
  - exists [], [10], [32], (decimal w), (decimal h).
    split; [constructor|]. split; [apply spaces_1; cbn; auto 10|]. split; [apply spaces_1; cbn; auto 10|].
    split; [apply decimal_text|]. split; [apply decimal_text|]. reflexivity.
  - unfold pbmHeader. repeat rewrite <- app_assoc. reflexivity.
Qed.
Lemma readBinary_fitted n t : 0 <= n -> fitted n t (readBinary n t).
Proof.
  intros Hn. unfold readBinary. set (d := slice t 0 n).
  assert (Hd : zlen d <= n) by (apply zlen_slice_le; exact Hn).
  assert (HZ : zlen (repeat 0 (Z.to_nat n)) = n) by (rewrite zlen_repeat; lia).
  split; [rewrite zlen_blit; lia|]. intros i Hi. rewrite nthZ_blit by (pose proof (zlen_nonneg d); lia).
  pose proof (zlen_nonneg t) as Ht.
  assert (HDL : zlen d = Z.min n (zlen t)).
  { unfold d, slice, zlen. rewrite firstn_length. cbn [skipn Z.to_nat]. change (skipn (Z.to_nat 0) t) with t. lia. }
  replace ((0 <=? i) && (i <? 0 + zlen d)) with (i <? zlen d) by lia.
  destruct (Z.ltb_spec i (zlen d)).
  - unfold d. rewrite nthZ_slice by lia. f_equal. lia.
  - rewrite (nthZ_over t) by lia. unfold nthZ. apply nth_repeat.
Qed.
Lemma readPBM_binary w h hd t : read_size w h -> read_as_header magicP4 w h hd ->
  exists img, readPBM (hd ++ t) = Ok (Some (w, h, img)) /\ fitted (image_bytes w h) t img.
Proof.
  intros Hp Hh. rewrite (readPBM_header _ _ _ _ _ (or_intror eq_refl) Hp Hh). unfold read_rest.
  change (eqbl magicP4 magicP4) with true. cbv iota. eexists. split; [reflexivity|]. apply readBinary_fitted.
  unfold read_size in Hp. unfold image_bytes. lia.
Qed.
Lemma fitted_bytes n data img : bytes data -> fitted n data img -> bytes img.
Proof.
  intros Hb [HL H]. unfold bytes. apply Forall_forall. intros x Hx. apply (In_nth _ _ 0) in Hx. destruct Hx as (k & Hk & <-).
  specialize (H (Z.of_nat k) ltac:(unfold zlen in HL; lia)). unfold nthZ in H at 1. rewrite Nat2Z.id in H. rewrite H.
  apply bytes_nthZ. exact Hb.
Qed.
Lemma fitted_self n data img : zlen data = n -> fitted n data img -> img = data.
Proof. intros HL [H1 H2]. apply list_extZ; [lia|]. intros i Hi. apply H2. lia. Qed.
Lemma fitted_slice n m data img : n <= m -> fitted n (slice data 0 m) img -> fitted n data img.
Proof.
  intros Hm [HL H]. split; [exact HL|]. intros i Hi. rewrite H by exact Hi. unfold nthZ, slice.
  change (skipn (Z.to_nat 0) data) with data. apply nth_firstn_lt. lia.
Qed.
Lemma image_le_rows w h : 0 < w -> 0 < h -> image_bytes w h <= h * row_bytes w.
Proof. intros Hw Hh. unfold image_bytes, row_bytes. nia. Qed.

Lemma writePBM_spec data w h : picture_size w h ->
  exists t, writePBM data w h = Ok (pbmHeader magicP1 w h ++ t, h * row_bytes w <=? zlen data) /\
    text_of (map row_text (rows (Z.to_nat h) (Z.to_nat (row_bytes w)) data)) t.
Proof.
  intros (Hw & Hh & Hwh). unfold writePBM. replace (h <=? 0) with false by lia.
  rewrite chk_ok by (unfold INT_MIN, INT_MAX; nia). cbn [bind]. rewrite Z.quot_div_nonneg by lia. fold (row_bytes w).
  assert (Hr : 1 <= row_bytes w) by (unfold row_bytes; lia).
  destruct (writeRows_spec (Z.to_nat (row_bytes w)) data ltac:(lia) (Z.to_nat h) 0) as (t & E & T); [pose proof (zlen_nonneg data); lia|].
  rewrite E. exists t. split; [|exact T]. rewrite !Z2Nat.id by lia. reflexivity.
Qed.
Lemma writePBM_read data w h t : picture_size w h -> bytes data ->
  text_of (map row_text (rows (Z.to_nat h) (Z.to_nat (row_bytes w)) data)) t ->
  let late := exists k, 0 <= k < h /\ image_bytes w h <= k * row_bytes w < zlen data in
  (late /\ readPBM (pbmHeader magicP1 w h ++ t) = UB) \/
  (~ late /\ exists img, readPBM (pbmHeader magicP1 w h ++ t) = Ok (Some (w, h, img)) /\ fitted (image_bytes w h) data img).
Proof.
  intros Hp Hb T late. destruct Hp as (Hw & Hh & Hwh) eqn:EHp. assert (Hr : 1 <= row_bytes w) by (unfold row_bytes; lia).
  assert (HO : overrun (image_bytes w h) (map row_text (rows (Z.to_nat h) (Z.to_nat (row_bytes w)) data)) <-> late).
  { rewrite rows_overrun by lia. rewrite !Z2Nat.id by lia. reflexivity. }
  destruct (readPBM_text w h _ _ t (size_read w h (conj Hw (conj Hh Hwh))) (header_read _ w h _ (pbmHeader_header _ w h) (conj Hw (conj Hh Hwh))) T) as [[O E]|[O (img & E & P)]].
  - left. split; [apply HO; exact O|exact E].
  - right. split; [rewrite <- HO; exact O|]. exists img. split; [exact E|].
    rewrite rows_pixels, rows_concat in P by (apply rows_nonempty; lia).
    replace (Z.to_nat h * Z.to_nat (row_bytes w))%nat with (Z.to_nat (h * row_bytes w)) in P by (rewrite Z2Nat.inj_mul by lia; reflexivity).
    eapply picture_fitted; [exact Hb| |exact P]. apply image_le_rows; assumption.
Qed.

Lemma writePBMBinary_spec data w h : picture_size w h ->
  writePBMBinary data w h = Ok (pbmHeader magicP4 w h ++ slice data 0 (image_bytes w h), true).
Proof.
  intros (Hw & Hh & Hwh). unfold writePBMBinary. rewrite chk_ok by (unfold INT_MIN, INT_MAX; nia). cbn [bind].
  rewrite chk_ok by (unfold INT_MIN, INT_MAX; nia). cbn [bind]. rewrite Z.quot_div_nonneg by nia. fold (image_bytes w h).
  pose proof (zlen_nonneg data). assert (0 < image_bytes w h) by (unfold image_bytes; nia).
  unfold guard. replace (0 <=? Z.min (image_bytes w h) (zlen data)) with true by lia. f_equal. f_equal. f_equal.
  unfold slice. change (skipn (Z.to_nat 0) data) with data. destruct (Z.le_gt_cases (image_bytes w h) (zlen data)).
  - rewrite Z.min_l by lia. reflexivity.
  - rewrite Z.min_r by lia. rewrite !firstn_zlen by lia. reflexivity.
Qed.

Lemma writeRows_blank data h : forall i, writeRows h 0 data i = (repeat 10 h, true).
Proof. induction h as [|h IH]; intros i; [reflexivity|]. cbn [writeRows writeRow]. rewrite IH. reflexivity. Qed.
Lemma quot_small q : -8 < q <= 7 -> Z.quot q 8 = 0.
Proof.
  intros H. destruct (Z.le_gt_cases 0 q) as [P|N]; [apply Z.quot_small; lia|]. rewrite <- (Z.opp_involutive q), Z.quot_opp_l by lia. rewrite Z.quot_small by lia. reflexivity.
Qed.
Lemma quot_neg q : q <= -8 -> Z.quot q 8 < 0.
Proof. intros H. rewrite <- (Z.opp_involutive q), Z.quot_opp_l by lia. rewrite Z.quot_div_nonneg by lia. lia. Qed.
Lemma writePBM_blank data w h : -2147483648 <= w <= 0 -> 0 < h -> writePBM data w h = Ok (pbmHeader magicP1 w h ++ repeat 10 (Z.to_nat h), true).
Proof.
  intros Hw Hh. unfold writePBM. replace (h <=? 0) with false by lia. rewrite chk_ok by (unfold INT_MIN, INT_MAX; lia). cbn [bind].
  replace (Z.to_nat (Z.quot (w + 7) 8)) with O; [rewrite writeRows_blank; reflexivity|]. symmetry.
  destruct (Z.le_gt_cases (w + 7) (-8)) as [N|N]; [pose proof (quot_neg _ N); lia|rewrite quot_small by lia; reflexivity].
Qed.
Lemma writePBMBinary_blank data w h : -15 < w * h <= 0 -> writePBMBinary data w h = Ok (pbmHeader magicP4 w h, true).
Proof.
  intros H. unfold writePBMBinary. rewrite chk_ok by (unfold INT_MIN, INT_MAX; lia). cbn [bind]. rewrite chk_ok by (unfold INT_MIN, INT_MAX; lia). cbn [bind].
  rewrite quot_small by lia. rewrite Z.min_l by (pose proof (zlen_nonneg data); lia). cbn [guard Z.leb Z.compare]. unfold slice. cbn. rewrite app_nil_r. reflexivity.
Qed.
Lemma writePBMBinary_ub data w h : w * h <= -15 \/ 2147483647 < w * h + 7 -> writePBMBinary data w h = UB.
Proof.
  intros H. unfold writePBMBinary, chk. destruct (in_int (w * h)) eqn:E1; [|reflexivity]. cbn [bind]. destruct (in_int (w * h + 7)) eqn:E2; [|reflexivity]. cbn [bind].
  apply in_int_true in E1, E2. unfold INT_MIN, INT_MAX in *. unfold guard. replace (0 <=? Z.min (Z.quot (w * h + 7) 8) (zlen data)) with false; [reflexivity|].
  symmetry. apply Z.leb_gt. pose proof (quot_neg (w * h + 7) ltac:(lia)). lia.
Qed.
Lemma comparePBM_spec file data w h : comparePBM file data w h =
  do r <- readPBM file; Ok (match r with None => false | Some (w', h', img) => (w' =? w) && (h' =? h) && eqbl img data end).
Proof.
  unfold comparePBM. destruct (readPBM file) as [[[[w' h'] img]|]| |]; cbn [bind]; try reflexivity.
  destruct (Z.eqb_spec w' w), (Z.eqb_spec h' h); cbn [negb orb andb]; rewrite ?orb_true_r, ?orb_false_r; try reflexivity.
  destruct (Z.eqb_spec (zlen img) (zlen data)) as [HL|HL]; cbn [negb].
  - f_equal. apply eq_true_iff_eq. rewrite eqbl_spec, forallb_forall. split.
    + intros H. apply list_extZ; [exact HL|]. intros i Hi. specialize (H (Z.to_nat i)). rewrite in_seq in H.
      rewrite Z2Nat.id in H by lia. apply Z.eqb_eq. apply H. unfold zlen in Hi. lia.
    + intros -> i _. apply Z.eqb_refl.
  - rewrite eqbl_neq; [reflexivity|]. intros ->. congruence.
Qed.
Lemma comparePBM_true file data w h : comparePBM file data w h = Ok true <-> readPBM file = Ok (Some (w, h, data)).
Proof.
  rewrite comparePBM_spec. destruct (readPBM file) as [[[[w' h'] img]|]| |]; cbn [bind]; try (split; congruence).
  split.
  - intros E. apply Ok_inj in E. rewrite !andb_true_iff, eqbl_spec in E. destruct E as [[E1 E2] ->].
    apply Z.eqb_eq in E1, E2. subst. reflexivity.
  - intros E. apply Ok_inj in E. injection E as -> -> ->. rewrite !Z.eqb_refl, eqbl_refl. reflexivity.
Qed.

(** ** What is returned for any file *)
Lemma wr_len (l : list Z) i v l' : wr l i v = Ok l' -> zlen l' = zlen l /\ (bytes l -> is_byte v -> bytes l').
Proof.
  unfold wr, wr_slice. destruct (inb (zlen l) i (zlen [v])) eqn:E; [|discriminate]. intros H. apply Ok_inj in H. subst l'.
  apply inb_true in E. change (zlen [v]) with 1 in E. split; [apply zlen_blit; [lia|change (zlen [v]) with 1; lia]|].
  intros Hb Hv. apply bytes_blit; [exact Hb|]. constructor; [exact Hv|constructor].
Qed.
Lemma putChars_len n line : forall img i img' i', putChars n line img i = Ok (img', i') -> zlen img' = zlen img /\ (bytes img -> bytes img').
Proof.
  induction line as [|c t IH]; intros img i img' i' E; cbn [putChars] in E.
  - apply Ok_inj in E. injection E as -> _. auto.
  - destruct ((c =? 48) || (c =? 49)).
    + destruct (rd img (i / 8)) as [v| |]; try discriminate. cbn [bind] in E.
      destruct (wr img (i / 8) _) as [img1| |] eqn:E1; try discriminate. cbn [bind] in E. apply wr_len in E1. destruct E1 as [L1 B1].
      destruct (chk (i + 1)) as [i1| |]; try discriminate. cbn [bind] in E.
      destruct (n * 8 <=? i1).
      * apply Ok_inj in E. injection E as -> _. split; [exact L1|]. intros Hb. apply B1; [exact Hb|apply u8_byte].
      * apply IH in E. destruct E as [L2 B2]. split; [congruence|]. intros Hb. apply B2, B1; [exact Hb|apply u8_byte].
    + cbn [bind] in E. destruct (n * 8 <=? i); [apply Ok_inj in E; injection E as -> _; auto|]. apply IH in E. exact E.
Qed.
Lemma putLines_len n ls : forall img i img' i', putLines n ls img i = Ok (img', i') -> zlen img' = zlen img /\ (bytes img -> bytes img').
Proof.
  induction ls as [|l ls IH]; intros img i img' i' E; cbn [putLines] in E.
  - apply Ok_inj in E. injection E as -> _. auto.
  - destruct (atEnd l || (nthZ l 0 =? 35)); [apply IH in E; exact E|].
    destruct (putChars n l img i) as [[img1 i1]| |] eqn:E1; try discriminate. cbn [bind] in E.
    apply putChars_len in E1. apply IH in E. destruct E1, E. split; [congruence|auto].
Qed.
Lemma skip_bytes t : bytes t -> bytes (skipSpace t).
Proof. induction 1 as [|c t Hc Ht IH]; [constructor|]. cbn [skipSpace]. destruct (isSpace c); [exact IH|constructor; assumption]. Qed.
Lemma span_bytes f t : bytes t -> bytes (snd (span f t)).
Proof.
  induction 1 as [|c t Hc Ht IH]; [constructor|]. cbn [span]. destruct (f c); [|constructor; assumption].
  destruct (span f t). exact IH.
Qed.
Lemma readWord_bytes s : bytes (isRest s) -> bytes (isRest (snd (readWord s))).
Proof.
  intros H. unfold readWord. destruct (negb (isGood s)); [exact H|]. apply skip_bytes in H.
  destruct (skipSpace (isRest s)) as [|c t]; [constructor|].
  pose proof (span_bytes (fun c => negb (isSpace c)) _ H) as B. destruct (span _ (c :: t)). exact B.
Qed.
Lemma readInt_bytes s : bytes (isRest s) -> bytes (isRest (snd (readInt s))).
Proof.
  intros H. unfold readInt. destruct (negb (isGood s)); [exact H|]. apply skip_bytes in H.
  destruct (skipSpace (isRest s)) as [|c t]; [constructor|]. inversion H; subst.
  assert (B : forall u, bytes u -> forall ds r, span isDigit u = (ds, r) -> bytes r).
  { intros u Hu ds r E. pose proof (span_bytes isDigit u Hu) as X. rewrite E in X. exact X. }
  destruct (c =? 45); [|destruct (c =? 43)].
  - destruct (span isDigit t) as [ds r] eqn:E. apply B in E; [|assumption]. destruct (atEnd ds); [exact E|]. destruct (in_int _); exact E.
  - destruct (span isDigit t) as [ds r] eqn:E. apply B in E; [|assumption]. destruct (atEnd ds); [exact E|]. destruct (in_int _); exact E.
  - destruct (span isDigit (c :: t)) as [ds r] eqn:E. apply B in E; [|assumption]. destruct (atEnd ds); [exact E|]. destruct (in_int _); exact E.
Qed.
Lemma readPBM_sound t w h img : bytes t -> readPBM t = Ok (Some (w, h, img)) ->
  0 < w * h + 7 /\ zlen img = image_bytes w h /\ 0 < zlen img /\ bytes img.
Proof.
  intros Hb E. unfold readPBM in E. pose proof (readWord_bytes (openFile t) Hb) as B1.
  destruct (readWord (openFile t)) as [magic s1]. cbn [snd] in B1. apply readInt_bytes in B1.
  destruct (readInt s1) as [w' s2]. cbn [snd] in B1. apply readInt_bytes in B1. destruct (readInt s2) as [h' s3]. cbn [snd] in B1.
  destruct (negb (eqbl magic magicP4) && negb (eqbl magic magicP1)); [discriminate|].
  assert (B4 : bytes (isRest (getlineNone s3))).
  { unfold getlineNone. destruct (negb (isGood s3)); [exact B1|]. destruct (isRest s3) as [|c r]; [constructor|].
    destruct (c =? 10); [inversion B1; assumption|exact B1]. }
  destruct (negb (isGood (getlineNone s3))); [discriminate|].
  unfold chk in E at 1. destruct (in_int (w' * h')); [|discriminate]. cbn [bind] in E.
  unfold chk in E at 1. destruct (in_int (w' * h' + 7)); [|discriminate]. cbn [bind] in E.
  destruct (Z.leb_spec (Z.quot (w' * h' + 7) 8) 0) as [|Hq]; [discriminate|].
  assert (Hp : 0 < w' * h' + 7).
  { destruct (Z.lt_ge_cases 0 (w' * h' + 7)) as [|C]; [assumption|].
    pose proof (Z.quot_opp_l (w' * h' + 7) 8 ltac:(lia)). pose proof (Z.quot_pos (- (w' * h' + 7)) 8 ltac:(lia) ltac:(lia)). lia. }
  rewrite Z.quot_div_nonneg in E, Hq by lia. fold (image_bytes w' h') in E, Hq.
  destruct (eqbl magic magicP4).
  - apply Ok_inj in E. injection E as -> -> <-.
    pose proof (readBinary_fitted (image_bytes w h) (isRest (getlineNone s3)) ltac:(lia)) as F.
    split; [exact Hp|]. destruct F as [F1 F2] eqn:EF. split; [exact F1|]. split; [lia|]. eapply fitted_bytes; [exact B4|]. split; eassumption.
  - destruct (putLines _ _ _ 0) as [[img1 i1]| |] eqn:E1; try discriminate. cbn [bind] in E. apply Ok_inj in E. injection E as -> -> ->.
    apply putLines_len in E1. destruct E1 as [L B]. rewrite zlen_repeat, Z2Nat.id in L by lia. split; [exact Hp|]. split; [exact L|]. split; [lia|].
    apply B, bytes_repeat0.
Qed.
