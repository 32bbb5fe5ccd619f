(** A digital line without half-way points is determined by its two ends. *)
From Verif Require Import Base S_Graphics S_Paint.

Lemma half_way L i v x y : 0 < L -> 0 <= i <= L -> (0 < i < L -> forall k, 2 * (i * v) <> L * (2 * k + 1)) ->
  2 * Z.abs (L * x - i * v) <= L -> 2 * Z.abs (L * y - i * v) <= L -> x = y.
Proof.
  intros HL Hi HT H1 H2. destruct (Z.lt_trichotomy x y) as [H|[H|H]]; [|exact H|]; exfalso.
  - assert (y = x + 1) by nia. subst y. assert (2 * (i * v) = L * (2 * x + 1)) by nia.
    assert (L * (2 * x + 1) <> 0) by (apply Z.neq_mul_0; lia). destruct (Z.eq_dec i 0) as [->|]; [lia|].
    destruct (Z.eq_dec i L) as [->|]; [|apply (HT ltac:(lia) x); exact H0].
    assert (2 * v = 2 * x + 1) by (apply (Z.mul_reg_l _ _ L); lia). lia.
  - assert (x = y + 1) by nia. subst x. assert (2 * (i * v) = L * (2 * y + 1)) by nia.
    assert (L * (2 * y + 1) <> 0) by (apply Z.neq_mul_0; lia). destruct (Z.eq_dec i 0) as [->|]; [lia|].
    destruct (Z.eq_dec i L) as [->|]; [|apply (HT ltac:(lia) y); exact H0].
    assert (2 * v = 2 * y + 1) by (apply (Z.mul_reg_l _ _ L); lia). lia.
Qed.

Lemma pt_ext (p q : Z * Z) : fst p = fst q -> snd p = snd q -> p = q.
Proof. destruct p, q. cbn [fst snd]. congruence. Qed.
Lemma same_point_eqb (s a : Z * Z) : (fst s =? fst a) && (snd s =? snd a) = true -> s = a.
Proof. intros H. apply andb_true_iff in H. apply pt_ext; lia. Qed.
Lemma no_length (a b : Z * Z) : Z.max (Z.abs (fst b - fst a)) (Z.abs (snd b - snd a)) = 0 -> b = a.
Proof. intros H. apply pt_ext; lia. Qed.

Lemma digital_line_parts a b l : digital_line a b l ->
  let L := Z.max (Z.abs (fst b - fst a)) (Z.abs (snd b - snd a)) in
  (forall i k, 0 < i < L -> 2 * (i * (fst b - fst a)) <> L * (2 * k + 1) /\ 2 * (i * (snd b - snd a)) <> L * (2 * k + 1)) ->
  forall p, In p l <-> exists i, 0 <= i <= L /\ 2 * Z.abs (L * (fst p - fst a) - i * (fst b - fst a)) <= L /\ 2 * Z.abs (L * (snd p - snd a) - i * (snd b - snd a)) <= L /\ (L = 0 -> p = a).
Proof.
  intros (s & e & SE & D) L HT. cbv zeta in D. fold L in D. destruct D as (D1 & D2 & D3 & D4 & _).
  pose proof (no_length a b) as NL. fold L in NL. assert (L1 : 0 <= L) by (unfold L; clear; lia). clearbody L. unfold zlen in D1.
  set (same := (fst s =? fst a) && (snd s =? snd a)).
  assert (IDX : forall i, 0 <= i <= L -> exists p, (forall q, nth_error l (Z.to_nat (if same then i else L - i)) = Some q <-> q = p) /\
       2 * Z.abs (L * (fst p - fst a) - i * (fst b - fst a)) <= L /\ 2 * Z.abs (L * (snd p - snd a) - i * (snd b - snd a)) <= L).
  { intros i Hi. destruct same eqn:ES; unfold same in ES.
    - destruct (D4 i Hi) as (p & E & A & B). exists p. split; [intros q; rewrite E; split; congruence|].
      apply same_point_eqb in ES. assert (ee : e = b) by (destruct SE as [SE|SE]; inversion SE; congruence).
      subst s e. split; assumption.
    - assert (Hi2 : 0 <= L - i <= L) by (clear - Hi; lia).
      destruct (D4 (L - i) Hi2) as (p & E & A & B). exists p. split; [intros q; rewrite E; split; congruence|].
      destruct SE as [SE|SE]; inversion SE; subst s e; [rewrite !Z.eqb_refl in ES; discriminate|].
      assert (Q : forall P A B, L * (P - B) - (L - i) * (A - B) = L * (P - A) - i * (B - A)) by (intros; ring). rewrite Q in A, B. split; assumption. }
  clearbody same. intros p. split.
  - intros Hp. apply In_nth_error in Hp. destruct Hp as [n Hn]. assert (Hn2 : (n < length l)%nat) by (apply nth_error_Some; congruence).
    set (i := if same then Z.of_nat n else L - Z.of_nat n). assert (Hi : 0 <= i <= L) by (unfold i; clear - D1 Hn2; destruct same; lia).
    exists i. split; [exact Hi|]. destruct (IDX i Hi) as (p' & E & A & B). assert (p = p').
    { apply E. rewrite <- Hn. apply f_equal. unfold i. clear. destruct same; lia. } subst p'. split; [exact A|]. split; [exact B|].
    intros L0. assert (n = 0%nat) by (clear - D1 Hn2 L0; lia). subst n. assert (p = s) by congruence. subst p.
    destruct SE as [SE|SE]; inversion SE; [reflexivity|]. apply NL. exact L0.
  - intros (i & Hi & A & B & Z0). destruct (IDX i Hi) as (p' & E & A' & B'). apply (nth_error_In l (Z.to_nat (if same then i else L - i))).
    apply E. destruct (Z.eq_dec L 0) as [L0|L0].
    + specialize (Z0 L0). subst p. assert (i = 0) by (clear - Hi L0; lia). subst i. assert (E2 : nth_error l (Z.to_nat (if same then 0 else L - 0)) = Some s) by (rewrite L0; destruct same; exact D2).
      apply E in E2. subst p'. destruct SE as [SE|SE]; inversion SE; [reflexivity|]. symmetry. apply NL. exact L0.
    + assert (LP : 0 < L) by (clear - L0 L1; lia).
      assert (X : fst p - fst a = fst p' - fst a) by (apply (half_way L i (fst b - fst a)); try assumption; intros Hi2 k; apply (HT i k Hi2)).
      assert (Y : snd p - snd a = snd p' - snd a) by (apply (half_way L i (snd b - snd a)); try assumption; intros Hi2 k; apply (HT i k Hi2)).
      clear - X Y. apply pt_ext; lia.
Qed.
