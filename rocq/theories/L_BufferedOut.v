(** Lemmas about the non-float insertions of BufferedOut. *)
From Verif Require Import Base S_BufferedOut M_BufferedOut L_Decimal.
Ltac Zify.zify_post_hook ::= Z.div_mod_to_equations.

Definition inside (s : bo) : Prop := 0 <= size s <= capacity s.
Definition room (s : bo) : Z := capacity s - size s.
(** [s'] is [s] with [t] appended to its text *)
Definition appended (s : bo) (t : list Z) (s' : bo) : Prop :=
  asStringView s' = asStringView s ++ t /\ size s' = size s + zlen t /\
  capacity s' = capacity s /\ size s' <= capacity s'.
Definition same_format (s s' : bo) : Prop := prec s' = prec s /\ wid s' = wid s /\ fillc s' = fillc s.

Lemma text_blit (m : list Z) p t : 0 <= p -> p + zlen t <= zlen m ->
  slice (blit m p t) 0 (p + zlen t) = slice m 0 p ++ t.
Proof.
  intros H1 H2. pose proof (zlen_nonneg t). rewrite slice_app_split by lia.
  rewrite slice_blit_out by lia. rewrite Z.add_0_l, slice_blit_same by lia. reflexivity.
Qed.

Lemma appended_blit s t pr w fl : inside s -> zlen t <= room s ->
  appended s t (Bo (blit (mem s) (pos s) t) (pos s + zlen t) pr w fl).
Proof.
  unfold inside, room, appended, asStringView, size, capacity. cbn [mem pos]. intros H1 H2.
  pose proof (zlen_nonneg t). rewrite text_blit, zlen_blit by lia. repeat split; lia.
Qed.

Lemma appended_nil s pr w fl : inside s -> appended s [] (Bo (mem s) (pos s) pr w fl).
Proof.
  unfold inside, appended, asStringView, size, capacity. cbn [mem pos]. intros H.
  split; [symmetry; apply app_nil_r|]. change (zlen (@nil Z)) with 0. repeat split; lia.
Qed.
Lemma appended_inside s t s' : inside s -> appended s t s' -> inside s' /\ room s' = room s - zlen t.
Proof.
  unfold inside, room, appended. pose proof (zlen_nonneg t). intros H1 (H2 & H3 & H4 & H5). lia.
Qed.
Lemma appended_trans a t b u c : appended a t b -> appended b u c -> appended a (t ++ u) c.
Proof.
  unfold appended. intros (A1 & A2 & A3 & A4) (B1 & B2 & B3 & B4).
  rewrite B1, A1, app_assoc, zlen_app. repeat split; lia.
Qed.
Lemma same_format_refl s : same_format s s.
Proof. repeat split. Qed.
Lemma same_format_trans a b c : same_format a b -> same_format b c -> same_format a c.
Proof. unfold same_format. intuition congruence. Qed.

Lemma insStr_ok str s : inside s -> exists s', insStr str s = Ok s' /\
  appended s (firstn (Z.to_nat (room s)) str) s' /\ same_format s s'.
Proof.
  intros Hs. pose proof Hs as Hs'. unfold inside, size, capacity in Hs'.
  unfold insStr. set (n := Z.min (zlen str) (zlen (mem s) - pos s)).
  pose proof (zlen_nonneg str).
  assert (E : slice str 0 n = firstn (Z.to_nat (room s)) str).
  { unfold slice. cbn [Z.to_nat skipn]. unfold n, room, capacity, size.
    destruct (Z.le_gt_cases (zlen str) (zlen (mem s) - pos s)).
    - rewrite Z.min_l by lia. rewrite !firstn_all2; unfold zlen in *; try reflexivity; lia.
    - rewrite Z.min_r by lia. reflexivity. }
  rewrite rd_slice_ok by lia. cbn [bind].
  assert (Hl : zlen (slice str 0 n) = n) by (apply zlen_slice; lia).
  rewrite wr_slice_ok by lia. cbn [bind]. eexists. split; [reflexivity|]. split; [|repeat split].
  rewrite <- Hl at 2. rewrite <- E. apply appended_blit; [exact Hs|]. unfold room, capacity, size. lia.
Qed.

Lemma wr_app (m : list Z) p c : 0 <= p < zlen m -> wr m p c = Ok (blit m p [c]).
Proof. intros H. unfold wr. apply wr_slice_ok; rewrite ?zlen_1; lia. Qed.

Lemma appended_char s c pr w fl : inside s -> 1 <= room s ->
  appended s [c] (Bo (blit (mem s) (pos s) [c]) (pos s + 1) pr w fl).
Proof. intros. change (pos s + 1) with (pos s + zlen [c]). apply appended_blit; [assumption|]. change (zlen [c]) with 1. lia. Qed.

Lemma addChar_ok c s : inside s -> exists s', addChar c s = Ok s' /\
  appended s (if 1 <=? room s then [c] else []) s' /\ same_format s s'.
Proof.
  intros Hs. pose proof Hs as Hs'. unfold inside, size, capacity in Hs'. unfold addChar.
  unfold room at 1, capacity, size.
  destruct (Z.eqb_spec (pos s) (zlen (mem s))) as [E|E].
  - replace (1 <=? zlen (mem s) - pos s) with false by lia. exists s. split; [reflexivity|].
    split; [|apply same_format_refl]. destruct s; apply appended_nil; assumption.
  - replace (1 <=? zlen (mem s) - pos s) with true by lia. rewrite wr_app by lia. cbn [bind].
    eexists. split; [reflexivity|]. split; [|repeat split]. apply appended_char; [assumption|].
    unfold room, capacity, size. lia.
Qed.

(** C strings *)
Lemma append_ok str s : inside s -> In 0 str \/ room s < zlen str ->
  exists m p, append (mem s) (pos s) str = Ok (m, p) /\
    appended s (firstn (Z.to_nat (room s)) (until_nul str)) (Bo m p (prec s) (wid s) (fillc s)).
Proof.
  revert s. induction str as [|c str IH]; intros s Hs H; pose proof Hs as Hs'; unfold inside, size, capacity in Hs'.
  - exfalso. destruct H as [[]|H]. unfold room, capacity, size in H. rewrite zlen_nil in H. lia.
  - cbn [append until_nul]. destruct (Z.eqb_spec c 0) as [->|Hc]; cbn [negb andb].
    + exists (mem s), (pos s). split; [reflexivity|]. rewrite firstn_nil. apply appended_nil. exact Hs.
    + destruct (Z.eqb_spec (pos s) (zlen (mem s))) as [E|E]; cbn [negb].
      * exists (mem s), (pos s). split; [reflexivity|]. unfold room, capacity, size.
        replace (Z.to_nat (zlen (mem s) - pos s)) with 0%nat by lia. cbn [firstn]. apply appended_nil. exact Hs.
      * rewrite wr_app by lia. cbn [bind].
        set (s1 := Bo (blit (mem s) (pos s) [c]) (pos s + 1) (prec s) (wid s) (fillc s)).
        assert (A : appended s [c] s1). { apply appended_char; [exact Hs|]. unfold room, capacity, size. lia. }
        destruct (appended_inside _ _ _ Hs A) as [Hs1 Hr]. change (zlen [c]) with 1 in Hr.
        destruct (IH s1 Hs1) as (m & p & E1 & A1).
        { destruct H as [[H|H]|H]; [congruence|left; exact H|right]. rewrite zlen_cons in H. lia. }
        exists m, p. split; [exact E1|].
        replace (Z.to_nat (room s)) with (S (Z.to_nat (room s1))) by (unfold room, capacity, size in *; lia).
        cbn [firstn]. change (c :: firstn (Z.to_nat (room s1)) (until_nul str)) with ([c] ++ firstn (Z.to_nat (room s1)) (until_nul str)).
        eapply appended_trans; [exact A|exact A1].
Qed.
Lemma append_ub str s : inside s -> ~ (In 0 str \/ room s < zlen str) -> append (mem s) (pos s) str = UB.
Proof.
  revert s. induction str as [|c str IH]; intros s Hs H; pose proof Hs as Hs'; unfold inside, size, capacity in Hs'.
  - reflexivity.
  - cbn [append]. destruct (Z.eqb_spec c 0) as [->|Hc]; cbn [negb andb].
    + exfalso. apply H. left. left. reflexivity.
    + assert (Hr : zlen str + 1 <= room s) by (destruct (Z.le_gt_cases (zlen str + 1) (room s)); [assumption|exfalso; apply H; right; rewrite zlen_cons; lia]).
      unfold room, capacity, size in Hr. pose proof (zlen_nonneg str).
      destruct (Z.eqb_spec (pos s) (zlen (mem s))) as [E|E]; [lia|]. cbn [negb].
      rewrite wr_app by lia. cbn [bind].
      set (s1 := Bo (blit (mem s) (pos s) [c]) (pos s + 1) (prec s) (wid s) (fillc s)).
      assert (A : appended s [c] s1). { apply appended_char; [exact Hs|]. unfold room, capacity, size. lia. }
      destruct (appended_inside _ _ _ Hs A) as [Hs1 Hrr]. change (zlen [c]) with 1 in Hrr.
      apply (IH s1 Hs1). intros [H1|H1]; apply H; [left; right; exact H1|right]. rewrite zlen_cons. lia.
Qed.
Lemma insCStr_ok str s : inside s -> In 0 str \/ room s < zlen str -> exists s', insCStr str s = Ok s' /\
  appended s (firstn (Z.to_nat (room s)) (until_nul str)) s' /\ same_format s s'.
Proof.
  intros Hs H. destruct (append_ok str s Hs H) as (m & p & E & A). unfold insCStr. rewrite E. cbn [bind].
  eexists. split; [reflexivity|]. split; [exact A|repeat split].
Qed.
Lemma insCStr_ub str s : inside s -> ~ (In 0 str \/ room s < zlen str) -> insCStr str s = UB.
Proof. intros Hs H. unfold insCStr. rewrite append_ub by assumption. reflexivity. Qed.

(** bytes *)
Lemma rd_hex d : 0 <= d < 16 -> rd hexDigits d = Ok (hexchar d).
Proof.
  intros H. rewrite rd_ok by (change (zlen hexDigits) with 16; lia). f_equal.
  assert (d = 0 \/ d = 1 \/ d = 2 \/ d = 3 \/ d = 4 \/ d = 5 \/ d = 6 \/ d = 7 \/ d = 8 \/ d = 9 \/
          d = 10 \/ d = 11 \/ d = 12 \/ d = 13 \/ d = 14 \/ d = 15) by lia.
  repeat (destruct H0 as [->|H0]; [reflexivity|]). subst. reflexivity.
Qed.
Lemma hex_hi b : is_byte b -> Z.shiftr (Z.land b 0xF0) 4 = b / 16.
Proof.
  intros H. rewrite Z.shiftr_land. change (Z.shiftr 240 4) with (Z.ones 4).
  rewrite Z.land_ones, Z.shiftr_div_pow2 by lia. unfold is_byte in H. change (2 ^ 4) with 16. lia.
Qed.
Lemma hex_lo b : Z.land b 0xF = b mod 16.
Proof. change 15 with (Z.ones 4). rewrite Z.land_ones by lia. reflexivity. Qed.

Lemma insByte_ok b s : inside s -> is_byte b -> 2 <= room s -> exists s', insByte b s = Ok s' /\
  appended s (hex2 b) s' /\ same_format s s'.
Proof.
  intros Hs Hb Hr. unfold insByte. rewrite hex_hi, hex_lo by assumption. unfold is_byte in Hb.
  rewrite !rd_hex by lia. cbn [bind]. pose proof Hs as Hs'. unfold inside, room, size, capacity in Hs', Hr.
  rewrite wr_app by lia. cbn [bind].
  set (s1 := Bo (blit (mem s) (pos s) [hexchar (b / 16)]) (pos s + 1) (prec s) (wid s) (fillc s)).
  assert (A : appended s [hexchar (b / 16)] s1).
  { apply appended_char; [exact Hs|]. unfold room, capacity, size. lia. }
  destruct (appended_inside _ _ _ Hs A) as [Hs1 Hrr]. change (zlen [hexchar (b / 16)]) with 1 in Hrr.
  assert (Hl : zlen (mem s1) = zlen (mem s)) by apply A.
  rewrite (wr_app (mem s1)) by (rewrite Hl; lia). cbn [bind]. eexists. split; [reflexivity|]. split; [|repeat split].
  unfold hex2. change [hexchar (b / 16); hexchar (b mod 16)] with ([hexchar (b / 16)] ++ [hexchar (b mod 16)]).
  eapply appended_trans; [exact A|]. replace (pos s + 2) with (pos s1 + 1) by (cbn; lia).
  apply appended_char; [exact Hs1|]. unfold room, capacity, size in *. lia.
Qed.
Lemma insByte_ub b s : inside s -> is_byte b -> room s < 2 -> insByte b s = UB.
Proof.
  intros Hs Hb Hr. unfold insByte. rewrite hex_hi, hex_lo by assumption. unfold is_byte in Hb.
  rewrite !rd_hex by lia. cbn [bind]. unfold inside, room, size, capacity in Hs, Hr.
  destruct (Z.eq_dec (pos s) (zlen (mem s))) as [E|E].
  - unfold wr at 1. rewrite wr_slice_ub; [reflexivity|]. rewrite zlen_1. lia.
  - rewrite wr_app by lia. cbn [bind]. unfold wr. rewrite wr_slice_ub; [reflexivity|].
    rewrite zlen_blit; rewrite ?zlen_1; lia.
Qed.

Lemma insByteLoop_ok bs : forall s, inside s -> bytes bs -> 2 * zlen bs <= room s -> exists s', insByteLoop bs s = Ok s' /\
  appended s (concat (map hex2 bs)) s' /\ same_format s s'.
Proof.
  induction bs as [|b bs IH]; intros s Hs Hb Hr.
  - exists s. split; [reflexivity|]. split; [destruct s; apply appended_nil; assumption|apply same_format_refl].
  - inversion Hb as [|? ? Hb1 Hb2]; subst. rewrite zlen_cons in Hr. pose proof (zlen_nonneg bs).
    destruct (insByte_ok b s Hs Hb1 ltac:(lia)) as (s1 & E1 & A1 & F1). cbn [insByteLoop]. rewrite E1. cbn [bind].
    destruct (appended_inside _ _ _ Hs A1) as [Hs1 Hr1]. change (zlen (hex2 b)) with 2 in Hr1.
    destruct (IH s1 Hs1 Hb2 ltac:(lia)) as (s2 & E2 & A2 & F2). exists s2. split; [exact E2|].
    split; [cbn [map concat]; eapply appended_trans; eassumption|eapply same_format_trans; eassumption].
Qed.
Lemma insSpan_ok bs s : inside s -> bytes bs -> exists s', insSpan bs s = Ok s' /\
  appended s (concat (map hex2 (firstn (Z.to_nat (room s / 2)) bs))) s' /\ same_format s s'.
Proof.
  intros Hs Hb. unfold insSpan. fold (capacity s). fold (size s). fold (room s).
  assert (Hr : 0 <= room s) by (unfold inside, room in *; lia).
  assert (E : firstn (Z.to_nat (if zlen bs <? room s / 2 then zlen bs else room s / 2)) bs = firstn (Z.to_nat (room s / 2)) bs).
  { destruct (Z.ltb_spec (zlen bs) (room s / 2)) as [H|H]; [|reflexivity].
    rewrite !firstn_all2; unfold zlen in *; try reflexivity; lia. }
  rewrite E. apply insByteLoop_ok; [exact Hs|apply bytes_firstn; exact Hb|].
  unfold zlen. rewrite firstn_length. lia.
Qed.

(** integers *)
Lemma slice_blit_pre (m : list Z) p d n : 0 <= n <= p -> p + zlen d <= zlen m -> slice (blit m p d) 0 n = slice m 0 n.
Proof. intros. pose proof (zlen_nonneg d). apply slice_blit_out; lia. Qed.

(** the number does not fit *)
Lemma insInt_full n junk s : inside s -> room s < zlen (decimal n) -> exists s', insInt n junk s = Ok s' /\
  appended s [] s' /\ same_format s s'.
Proof.
  intros Hs Hr. pose proof Hs as Hs'. unfold inside, room, size, capacity in Hs', Hr.
  unfold insInt, to_chars. replace (pos s + zlen (decimal n) <=? zlen (mem s)) with false by lia.
  set (j := firstn (Z.to_nat (zlen (mem s) - pos s)) junk).
  assert (Hj : zlen j <= zlen (mem s) - pos s) by (unfold j, zlen; rewrite firstn_length; unfold zlen in *; lia).
  pose proof (zlen_nonneg j). rewrite wr_slice_ok by lia. cbn [bind]. eexists. split; [reflexivity|]. split; [|repeat split].
  unfold appended, asStringView, size, capacity. cbn [mem pos]. rewrite slice_blit_pre, zlen_blit by lia.
  split; [symmetry; apply app_nil_r|]. change (zlen (@nil Z)) with 0. repeat split; lia.
Qed.
(** the number fits, no width pending *)
Lemma insInt_plain n junk s : inside s -> zlen (decimal n) <= room s -> wid s <= 0 -> exists s', insInt n junk s = Ok s' /\
  appended s (decimal n) s' /\ same_format s s'.
Proof.
  intros Hs Hr Hw. pose proof Hs as Hs'. pose proof Hr as Hr'. unfold inside, room, size, capacity in Hs', Hr'.
  unfold insInt, to_chars. replace (pos s + zlen (decimal n) <=? zlen (mem s)) with true by lia.
  rewrite wr_slice_ok by lia. cbn [bind]. unfold adjustPos. cbn [wid mem prec fillc]. replace (0 <? wid s) with false by lia.
  eexists. split; [reflexivity|]. split; [apply appended_blit; assumption|repeat split].
Qed.
(** the number fits, a width is pending *)
Definition padded (w fl : Z) (t : list Z) : list Z :=
  if zlen t <? w then repeat fl (Z.to_nat (w - zlen t)) ++ t else firstn (Z.to_nat w) t.
Lemma firstn_slice_blit (m : list Z) p t w : 0 <= p -> p + zlen t <= zlen m -> 0 <= w <= zlen t ->
  slice (blit m p t) 0 (p + w) = slice m 0 p ++ firstn (Z.to_nat w) t.
Proof.
  intros. pose proof (text_blit m p t ltac:(lia) ltac:(lia)) as E.
  rewrite slice_app_split by lia. rewrite slice_blit_pre by lia. f_equal.
  rewrite Z.add_0_l. pose proof (slice_blit_same m p t ltac:(lia) ltac:(lia)) as F.
  rewrite <- F at 2. change (firstn (Z.to_nat w) ?l) with (slice l 0 w). rewrite slice_slice by lia.
  f_equal. lia.
Qed.
Lemma zlen_padded w fl t : 0 <= w -> zlen (padded w fl t) = w.
Proof.
  intros H. unfold padded. pose proof (zlen_nonneg t). destruct (Z.ltb_spec (zlen t) w).
  - rewrite zlen_app, zlen_repeat. lia.
  - unfold zlen in *. rewrite firstn_length. lia.
Qed.

Lemma insInt_width n junk s : inside s -> zlen (decimal n) <= room s -> 0 < wid s <= room s ->
  exists s', insInt n junk s = Ok s' /\ appended s (padded (wid s) (fillc s) (decimal n)) s' /\
    prec s' = prec s /\ wid s' = 0 /\ fillc s' = fillc s.
Proof.
  intros Hs Hr Hw. pose proof Hs as Hs'. pose proof Hr as Hr'. unfold inside, room, size, capacity in Hs', Hr', Hw.
  pose proof (zlen_nonneg (decimal n)) as Hd0.
  unfold insInt, to_chars. replace (pos s + zlen (decimal n) <=? zlen (mem s)) with true by lia.
  set (t := decimal n) in *. rewrite wr_slice_ok by lia. cbn [bind]. unfold adjustPos. cbn [wid mem prec fillc].
  replace (0 <? wid s) with true by lia. unfold addPadding. cbn [wid mem prec fillc pos].
  replace (pos s + zlen t - pos s) with (zlen t) by lia. unfold padded.
  destruct (Z.ltb_spec (zlen t) (wid s)) as [H|H].
  - rewrite rd_slice_ok by (rewrite ?zlen_blit; lia). cbn [bind]. rewrite slice_blit_same by lia.
    assert (L1 : zlen (blit (mem s) (pos s) t) = zlen (mem s)) by (apply zlen_blit; lia).
    rewrite wr_slice_ok by lia. cbn [bind].
    set (m1 := blit (blit (mem s) (pos s) t) (pos s + wid s - zlen t) t).
    assert (L2 : zlen m1 = zlen (mem s)) by (unfold m1; rewrite zlen_blit; lia).
    set (fl := repeat (fillc s) (Z.to_nat (wid s - zlen t))).
    assert (L3 : zlen fl = wid s - zlen t) by (unfold fl; rewrite zlen_repeat; lia).
    rewrite wr_slice_ok by lia. cbn [bind mem pos prec fillc]. eexists. split; [reflexivity|].
    split; [|repeat split]. unfold appended, asStringView, size, capacity. cbn [mem pos].
    rewrite zlen_blit by lia. rewrite zlen_app, L3. repeat split; try lia.
    replace (pos s + wid s) with ((pos s + zlen fl) + zlen t) by lia.
    rewrite slice_app_split by lia. rewrite text_blit by lia. rewrite Z.add_0_l.
    rewrite slice_blit_out by lia. rewrite <- app_assoc. f_equal.
    + unfold m1. rewrite !slice_blit_pre by lia. reflexivity.
    + f_equal. unfold m1. replace (pos s + zlen fl) with (pos s + wid s - zlen t) by lia. apply slice_blit_same; lia.
  - cbn [bind mem pos prec fillc]. eexists. split; [reflexivity|]. split; [|repeat split].
    unfold appended, asStringView, size, capacity. cbn [mem pos]. rewrite zlen_blit, firstn_slice_blit by lia.
    assert (zlen (firstn (Z.to_nat (wid s)) t) = wid s) by (unfold zlen in *; rewrite firstn_length; lia).
    repeat split; lia.
Qed.
Lemma insInt_ub n junk s : inside s -> zlen (decimal n) <= room s -> 0 < wid s -> room s < wid s -> insInt n junk s = UB.
Proof.
  intros Hs Hr Hw Hw'. unfold inside, room, size, capacity in *.
  pose proof (dec_text_len _ _ (decimal_text n)) as Hd0.
  unfold insInt, to_chars. replace (pos s + zlen (decimal n) <=? zlen (mem s)) with true by lia.
  set (t := decimal n) in *. rewrite wr_slice_ok by lia. cbn [bind]. unfold adjustPos. cbn [wid mem prec fillc].
  replace (0 <? wid s) with true by lia. unfold addPadding. cbn [wid mem prec fillc pos].
  replace (pos s + zlen t - pos s) with (zlen t) by lia. replace (zlen t <? wid s) with true by lia.
  rewrite rd_slice_ok by (rewrite ?zlen_blit; lia). cbn [bind]. rewrite slice_blit_same by lia.
  rewrite wr_slice_ub; [reflexivity|]. rewrite zlen_blit by lia. lia.
Qed.
