(** Decimal numerals: the digit loop produces the canonical text, which is unique. *)
From Verif Require Import Base S_BufferedOut M_BufferedOut.
Ltac Zify.zify_post_hook ::= Z.div_mod_to_equations.

Lemma horner_app a b acc : horner acc (a ++ b) = horner (horner acc a) b.
Proof. revert acc. induction a as [|d a IH]; intros acc; cbn [app horner]; auto. Qed.

Lemma horner_digits fuel n acc : 0 <= n < 2 ^ Z.of_nat fuel -> 
  horner 0 (digits fuel n acc) = horner n acc.
Proof.
  revert n acc. induction fuel as [|f IH]; intros n acc H.
  - change (2 ^ Z.of_nat 0) with 1 in H. replace n with 0 by lia. reflexivity.
  - cbn [digits]. rewrite Nat2Z.inj_succ, Z.pow_succ_r in H by lia.
    destruct (Z.ltb_spec n 10).
    + cbn [horner]. f_equal. lia.
    + rewrite IH by lia. cbn [horner]. f_equal. lia.
Qed.

Lemma digits_digits fuel n acc : 0 <= n -> Forall is_digit acc -> Forall is_digit (digits fuel n acc).
Proof.
  revert n acc. induction fuel as [|f IH]; intros n acc Hn H; [exact H|].
  cbn [digits]. assert (Forall is_digit ((48 + n mod 10) :: acc)).
  { apply Forall_cons; [unfold is_digit; lia|exact H]. }
  destruct (Z.ltb_spec n 10); [assumption|]. apply IH; [lia|assumption].
Qed.

Lemma digits_head fuel n acc : 0 < n < 2 ^ Z.of_nat fuel -> 
  exists d r, digits fuel n acc = d :: r /\ d <> 48.
Proof.
  revert n acc. induction fuel as [|f IH]; intros n acc H.
  - change (2 ^ Z.of_nat 0) with 1 in H. lia.
  - cbn [digits]. rewrite Nat2Z.inj_succ, Z.pow_succ_r in H by lia. destruct (Z.ltb_spec n 10).
    + exists (48 + n mod 10), acc. split; [reflexivity|lia].
    + apply IH. lia.
Qed.

Lemma numeral_digits n : 0 <= n -> numeral n (digits (S (Z.to_nat (Z.log2 n))) n []).
Proof.
  intros Hn. assert (B : 0 <= n < 2 ^ Z.of_nat (S (Z.to_nat (Z.log2 n)))).
  { split; [exact Hn|]. pose proof (Z.log2_nonneg n). rewrite Nat2Z.inj_succ, Z2Nat.id by lia.
    destruct (Z.eq_dec n 0) as [->|]; [reflexivity|]. apply Z.log2_spec. lia. }
  destruct (Z.eq_dec n 0) as [->|Hz].
  - repeat split; try discriminate. apply Forall_cons; [unfold is_digit; lia|apply Forall_nil].
  - destruct (digits_head _ n [] ltac:(split; [lia|apply B])) as (d & r & E & Hd).
    unfold numeral. split; [rewrite E; discriminate|]. split; [apply digits_digits; auto|].
    split; [rewrite horner_digits by exact B; reflexivity|].
    rewrite E. rewrite nthZ_cons by lia. cbn [Z.eqb]. intros; contradiction.
Qed.

Lemma decimal_text n : dec_text n (decimal n).
Proof.
  unfold dec_text, decimal. destruct (Z.ltb_spec n 0).
  - right. split; [assumption|]. exists (digits (S (Z.to_nat (Z.log2 (Z.abs n)))) (Z.abs n) []).
    split; [reflexivity|]. replace (Z.abs n) with (- n) by lia. apply numeral_digits. lia.
  - left. split; [assumption|]. replace (Z.abs n) with n by lia. apply numeral_digits. lia.
Qed.

Lemma horner_ge acc ds : 0 <= acc -> Forall is_digit ds -> acc * 10 ^ zlen ds <= horner acc ds < (acc + 1) * 10 ^ zlen ds.
Proof.
  intros Ha Hd. revert acc Ha. induction Hd as [|d ds Hd Hds IH]; intros acc Ha.
  - cbn [horner]. rewrite zlen_nil. lia.
  - cbn [horner]. rewrite zlen_cons, Z.pow_add_r by (pose proof (zlen_nonneg ds); lia).
    unfold is_digit in Hd. specialize (IH (10 * acc + (d - 48)) ltac:(lia)).
    pose proof (Z.pow_pos_nonneg 10 (zlen ds) ltac:(lia) (zlen_nonneg ds)). nia.
Qed.

Lemma numeral_bounds n ds : numeral n ds -> 0 <= n < 10 ^ zlen ds /\ (10 <= n -> 10 ^ (zlen ds - 1) <= n) /\ 1 <= zlen ds.
Proof.
  intros (Hne & Hd & Hv & Hz). pose proof (horner_ge 0 ds ltac:(lia) Hd) as B. rewrite Hv in B.
  split; [lia|]. destruct ds as [|d ds]; [congruence|]. pose proof (zlen_nonneg ds).
  rewrite zlen_cons. split; [|lia]. intros H10. replace (1 + zlen ds - 1) with (zlen ds) by lia.
  inversion Hd as [|? ? Hd1 Hd2]; subst. unfold is_digit in Hd1.
  rewrite nthZ_cons in Hz by lia. cbn [Z.eqb] in Hz.
  assert (d <> 48). { intros ->. specialize (Hz eq_refl). injection Hz as ->. cbn in H10. lia. }
  cbn [horner]. pose proof (horner_ge (10 * 0 + (d - 48)) ds ltac:(lia) Hd2).
  pose proof (Z.pow_pos_nonneg 10 (zlen ds) ltac:(lia) (zlen_nonneg ds)). nia.
Qed.

Lemma numeral_small n ds : numeral n ds -> n < 10 -> zlen ds = 1.
Proof.
  intros (Hne & Hd & Hv & Hz) H. destruct ds as [|d ds]; [congruence|].
  destruct ds as [|e ds]; [reflexivity|]. exfalso.
  rewrite nthZ_cons in Hz by lia. cbn [Z.eqb] in Hz.
  assert (d <> 48) by (intros ->; specialize (Hz eq_refl); discriminate).
  inversion Hd as [|? ? Hd1 Hd2]; subst. unfold is_digit in Hd1. cbn [horner] in H.
  inversion Hd2 as [|? ? He1 He2]; subst. unfold is_digit in He1.
  pose proof (horner_ge (10 * (10 * 0 + (d - 48)) + (e - 48)) ds ltac:(lia) He2).
  pose proof (Z.pow_pos_nonneg 10 (zlen ds) ltac:(lia) (zlen_nonneg ds)). nia.
Qed.

Lemma numeral_len n ds k : numeral n ds -> n < 10 ^ k -> 1 <= k -> zlen ds <= k.
Proof.
  intros N H Hk. pose proof (numeral_small n ds N) as Hs.
  apply numeral_bounds in N. destruct N as (N1 & N2 & N3).
  destruct (Z.le_gt_cases 10 n) as [H10|H10]; [|rewrite Hs; lia].
  specialize (N2 H10). assert (H0 : 10 ^ (zlen ds - 1) < 10 ^ k) by lia.
  apply Z.pow_lt_mono_r_iff in H0; lia.
Qed.

Lemma numeral_snoc n l d : numeral n (l ++ [d]) -> l <> [] ->
  numeral (n / 10) l /\ d = 48 + n mod 10 /\ 10 <= n.
Proof.
  intros N Hl. pose proof (numeral_small _ _ N) as Hsm.
  assert (H10 : 10 <= n).
  { destruct (Z.le_gt_cases 10 n); [assumption|]. specialize (Hsm ltac:(lia)).
    rewrite zlen_app, zlen_cons, zlen_nil in Hsm. destruct l; [congruence|]. rewrite zlen_cons in Hsm.
    pose proof (zlen_nonneg l). lia. }
  destruct N as (_ & Hd & Hv & Hz). apply Forall_app in Hd. destruct Hd as [Hdl Hdd].
  rewrite horner_app in Hv. cbn [horner] in Hv. inversion Hdd as [|? ? Hd1 _]; subst. unfold is_digit in Hd1.
  split; [|lia]. repeat split; auto; [lia|].
  intros H0. exfalso. rewrite nthZ_app1 in Hz.
  - specialize (Hz H0). destruct l as [|x l]; [congruence|]. destruct l; discriminate.
  - destruct l; [congruence|]. rewrite zlen_cons. pose proof (zlen_nonneg l). lia.
Qed.

Lemma numeral_unique a : forall n b, numeral n a -> numeral n b -> a = b.
Proof.
  induction a as [|d l IH] using rev_ind; intros n b Na Nb.
  - destruct Na as (H & _). congruence.
  - destruct b as [|d' l' _] using rev_ind; [destruct Nb as (H & _); congruence|].
    destruct l as [|x l].
    + assert (H : n < 10). { destruct Na as (_ & Hd & Hv & _). cbn in Hv.
        inversion Hd as [|? ? Hd1 _]; subst. unfold is_digit in Hd1. lia. }
      pose proof (numeral_small _ _ Nb H) as Hs. destruct l' as [|x' l'].
      * destruct Na as (_ & _ & Hv & _), Nb as (_ & _ & Hv' & _). cbn in Hv, Hv' |- *. f_equal. lia.
      * rewrite zlen_app, !zlen_cons, zlen_nil in Hs. pose proof (zlen_nonneg l'). lia.
    + destruct (numeral_snoc _ _ _ Na ltac:(discriminate)) as (Na' & Ed & H10).
      destruct l' as [|x' l'].
      * exfalso. destruct Nb as (_ & Hd & Hv & _). cbn in Hv.
        inversion Hd as [|? ? Hd1 _]; subst. unfold is_digit in Hd1. lia.
      * destruct (numeral_snoc _ _ _ Nb ltac:(discriminate)) as (Nb' & Ed' & _).
        rewrite (IH _ _ Na' Nb'). congruence.
Qed.

Lemma dec_text_unique n a b : dec_text n a -> dec_text n b -> a = b.
Proof.
  intros [[H1 Ha]|[H1 (x & -> & Ha)]] [[H2 Hb]|[H2 (y & -> & Hb)]]; try lia.
  - eapply numeral_unique; eassumption.
  - f_equal. eapply numeral_unique; eassumption.
Qed.

Lemma dec_text_len n t : dec_text n t -> 1 <= zlen t.
Proof.
  intros [[_ H]|[_ (x & -> & H)]]; apply numeral_bounds in H; rewrite ?zlen_cons; lia.
Qed.
Lemma dec_text_len_bound n t : dec_text n t -> - 2 ^ 63 <= n < 2 ^ 64 -> zlen t <= 20.
Proof.
  intros [[_ H]|[_ (x & -> & H)]] B.
  - apply (numeral_len _ _ 20) in H; [lia| |lia]. apply Z.lt_trans with (2 ^ 64); [lia|reflexivity].
  - apply (numeral_len _ _ 19) in H; [rewrite zlen_cons; lia| |lia]. apply Z.le_lt_trans with (2 ^ 63); [lia|reflexivity].
Qed.
Lemma dec_text_len_int n t : dec_text n t -> - 2 ^ 31 <= n < 2 ^ 32 -> zlen t <= 11 /\ (0 <= n -> zlen t <= 10).
Proof.
  intros [[Hn H]|[Hn (x & -> & H)]] B.
  - apply (numeral_len _ _ 10) in H; [lia| |lia]. apply Z.lt_trans with (2 ^ 32); [lia|reflexivity].
  - apply (numeral_len _ _ 10) in H; [rewrite zlen_cons; lia| |lia]. apply Z.le_lt_trans with (2 ^ 31); [lia|reflexivity].
Qed.
