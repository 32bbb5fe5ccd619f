(** Common vocabulary of the model: outcomes, machine integers, bounds-checked buffers. *)
From Coq Require Export List ZArith Lia Bool.
Export ListNotations.
Open Scope Z_scope.

(** ** Outcomes.  [UB] is undefined behaviour (out-of-bounds access, signed overflow, bad shift
    count); [Fuel] means the fuel given to a loop or recursion ran out. *)
Inductive res (A : Type) : Type :=
| Ok (a : A)
| UB
| Fuel.
Arguments Ok {A} a.
Arguments UB {A}.
Arguments Fuel {A}.

Lemma Ok_inj {A} (a b : A) : Ok a = Ok b -> a = b.
Proof. intros H. injection H. auto. Qed.
Definition bind {A B} (m : res A) (k : A -> res B) : res B :=
  match m with Ok a => k a | UB => UB | Fuel => Fuel end.
Notation "'do' x <- m ; k" := (bind m (fun x => k))
  (at level 200, x name, m at level 100, k at level 200, right associativity).
Notation "'do' ' p <- m ; k" := (bind m (fun p => k))
  (at level 200, p strict pattern, m at level 100, k at level 200, right associativity).
Definition guard {A} (b : bool) (k : res A) : res A := if b then k else UB.

(** ** Machine integers *)
Definition INT_MAX : Z := 2147483647.
Definition INT_MIN : Z := -2147483648.
Definition in_int (z : Z) : bool := (INT_MIN <=? z) && (z <=? INT_MAX).
(** result of a signed [int] operation whose mathematical value is [z] *)
Definition chk (z : Z) : res Z := if in_int z then Ok z else UB.
Definition u8 (z : Z) : Z := z mod 256.
Definition u16 (z : Z) : Z := z mod 65536.
Definition u32 (z : Z) : Z := z mod 4294967296.
(** conversion to a signed 8-bit type (two's complement) *)
Definition s8 (z : Z) : Z := let m := z mod 256 in if m <? 128 then m else m - 256.
Definition is_byte (z : Z) : Prop := 0 <= z < 256.
Definition bytes (l : list Z) : Prop := Forall is_byte l.

(** ** Buffers: lists indexed by [Z] *)
Definition zlen {A} (l : list A) : Z := Z.of_nat (length l).
Definition nthZ (l : list Z) (i : Z) : Z := nth (Z.to_nat i) l 0.
Definition slice {A} (l : list A) (off n : Z) : list A :=
  firstn (Z.to_nat n) (skipn (Z.to_nat off) l).
Definition blit {A} (l : list A) (off : Z) (d : list A) : list A :=
  firstn (Z.to_nat off) l ++ d ++ skipn (Z.to_nat off + length d) l.
(** is the range [off, off+n) inside a buffer of [len] elements? *)
Definition inb (len off n : Z) : bool := (0 <=? off) && (0 <=? n) && (off + n <=? len).
(** checked accesses *)
Definition rd (l : list Z) (i : Z) : res Z :=
  if inb (zlen l) i 1 then Ok (nthZ l i) else UB.
Definition rd_slice {A} (l : list A) (off n : Z) : res (list A) :=
  if inb (zlen l) off n then Ok (slice l off n) else UB.
Definition wr_slice {A} (l : list A) (off : Z) (d : list A) : res (list A) :=
  if inb (zlen l) off (zlen d) then Ok (blit l off d) else UB.
Definition wr {A} (l : list A) (i : Z) (v : A) : res (list A) := wr_slice l i [v].

Lemma inb_true len off n : inb len off n = true <-> 0 <= off /\ 0 <= n /\ off + n <= len.
Proof. unfold inb. rewrite !andb_true_iff, !Z.leb_le. tauto. Qed.
Lemma inb_false len off n : inb len off n = false <-> ~ (0 <= off /\ 0 <= n /\ off + n <= len).
Proof. rewrite <- inb_true. destruct (inb len off n); split; congruence. Qed.
Lemma in_int_true z : in_int z = true <-> INT_MIN <= z <= INT_MAX.
Proof. unfold in_int. rewrite andb_true_iff, !Z.leb_le. tauto. Qed.
Lemma chk_ok z : INT_MIN <= z <= INT_MAX -> chk z = Ok z.
Proof. intros H. unfold chk. apply in_int_true in H. rewrite H. reflexivity. Qed.

Lemma zlen_nonneg {A} (l : list A) : 0 <= zlen l.
Proof. unfold zlen. lia. Qed.
Lemma zlen_nil {A} : zlen (@nil A) = 0.
Proof. reflexivity. Qed.
Lemma zlen_1 {A} (x : A) : zlen [x] = 1.
Proof. reflexivity. Qed.
Lemma zlen_cons {A} (x : A) l : zlen (x :: l) = 1 + zlen l.
Proof. unfold zlen. cbn [length]. lia. Qed.
Lemma zlen_app {A} (a b : list A) : zlen (a ++ b) = zlen a + zlen b.
Proof. unfold zlen. rewrite app_length. lia. Qed.
Lemma zlen_repeat {A} (x : A) n : zlen (repeat x n) = Z.of_nat n.
Proof. unfold zlen. rewrite repeat_length. reflexivity. Qed.
Lemma zlen_map {A B} (f : A -> B) l : zlen (map f l) = zlen l.
Proof. unfold zlen. rewrite map_length. reflexivity. Qed.
Lemma zlen_rev {A} (l : list A) : zlen (rev l) = zlen l.
Proof. unfold zlen. rewrite rev_length. reflexivity. Qed.

Lemma zlen_slice {A} (l : list A) off n :
  0 <= off -> 0 <= n -> off + n <= zlen l -> zlen (slice l off n) = n.
Proof. unfold zlen, slice. intros. rewrite firstn_length, skipn_length. lia. Qed.
Lemma zlen_slice_le {A} (l : list A) off n : 0 <= n -> zlen (slice l off n) <= n.
Proof. unfold zlen, slice. intros. rewrite firstn_length. lia. Qed.
Lemma zlen_blit {A} (l : list A) off d :
  0 <= off -> off + zlen d <= zlen l -> zlen (blit l off d) = zlen l.
Proof.
  unfold zlen, blit. intros. rewrite !app_length, firstn_length, skipn_length. lia.
Qed.

Lemma nthZ_app (a b : list Z) i :
  0 <= i -> nthZ (a ++ b) i = if i <? zlen a then nthZ a i else nthZ b (i - zlen a).
Proof.
  intros Hi. unfold nthZ, zlen. destruct (Z.ltb_spec i (Z.of_nat (length a))) as [H|H].
  - rewrite app_nth1 by lia. reflexivity.
  - rewrite app_nth2 by lia. f_equal. lia.
Qed.
Lemma nthZ_app1 (a b : list Z) i : 0 <= i < zlen a -> nthZ (a ++ b) i = nthZ a i.
Proof. intros H. rewrite nthZ_app by lia. replace (i <? zlen a) with true by lia. reflexivity. Qed.
Lemma nthZ_app2 (a b : list Z) i : zlen a <= i -> nthZ (a ++ b) i = nthZ b (i - zlen a).
Proof.
  intros H. assert (0 <= zlen a) by (unfold zlen; lia). rewrite nthZ_app by lia.
  replace (i <? zlen a) with false by lia. reflexivity.
Qed.
Lemma nthZ_cons x l i : 0 <= i -> nthZ (x :: l) i = if i =? 0 then x else nthZ l (i - 1).
Proof.
  intros Hi. destruct (Z.eqb_spec i 0) as [->|H]; [reflexivity|].
  unfold nthZ. replace (Z.to_nat i) with (S (Z.to_nat (i - 1))) by lia. reflexivity.
Qed.
Lemma nth_firstn_lt {A} (l : list A) n i d : (i < n)%nat -> nth i (firstn n l) d = nth i l d.
Proof.
  revert n i. induction l as [|x l IH]; intros n i H.
  - rewrite firstn_nil. reflexivity.
  - destruct n; [lia|]. destruct i; [reflexivity|]. cbn. apply IH. lia.
Qed.
Lemma nth_skipn_add {A} (l : list A) n i d : nth i (skipn n l) d = nth (n + i) l d.
Proof.
  revert l. induction n as [|n IH]; intros l; [reflexivity|].
  destruct l; [destruct i; reflexivity|]. cbn. apply IH.
Qed.
Lemma nthZ_slice (l : list Z) off n i :
  0 <= off -> 0 <= i < n -> nthZ (slice l off n) i = nthZ l (off + i).
Proof.
  intros Ho Hi. unfold nthZ, slice. rewrite nth_firstn_lt by lia. rewrite nth_skipn_add.
  f_equal. lia.
Qed.
Lemma nthZ_blit (l : list Z) off d i :
  0 <= off -> off + zlen d <= zlen l -> 0 <= i ->
  nthZ (blit l off d) i =
    if (off <=? i) && (i <? off + zlen d) then nthZ d (i - off) else nthZ l i.
Proof.
  intros Ho Hd Hi. unfold blit, nthZ, zlen in *.
  destruct (Z.leb_spec off i) as [H1|H1]; cbn [andb].
  - rewrite app_nth2 by (rewrite firstn_length; lia). rewrite firstn_length.
    destruct (Z.ltb_spec i (off + Z.of_nat (length d))) as [H2|H2].
    + rewrite app_nth1 by lia. f_equal. lia.
    + rewrite app_nth2 by lia. rewrite nth_skipn_add. f_equal. lia.
  - rewrite app_nth1 by (rewrite firstn_length; lia). rewrite nth_firstn_lt by lia. reflexivity.
Qed.
Lemma nthZ_over (l : list Z) i : zlen l <= i -> nthZ l i = 0.
Proof. unfold zlen, nthZ. intros. apply nth_overflow. lia. Qed.

Lemma list_extZ (a b : list Z) :
  zlen a = zlen b -> (forall i, 0 <= i < zlen a -> nthZ a i = nthZ b i) -> a = b.
Proof.
  intros Hl H. apply nth_ext with (d := 0) (d' := 0).
  - unfold zlen in Hl. lia.
  - intros n Hn. specialize (H (Z.of_nat n)). unfold nthZ, zlen in H. rewrite Nat2Z.id in H.
    apply H. lia.
Qed.

Lemma slice_nil {A} (l : list A) off : slice l off 0 = [].
Proof. reflexivity. Qed.
Lemma slice_slice {A} (l : list A) o1 n1 o2 n2 :
  0 <= o1 -> 0 <= o2 -> 0 <= n2 -> o2 + n2 <= n1 ->
  slice (slice l o1 n1) o2 n2 = slice l (o1 + o2) n2.
Proof.
  intros. unfold slice. rewrite skipn_firstn_comm, firstn_firstn.
  rewrite Nat.min_l by lia. f_equal.
  replace (Z.to_nat (o1 + o2)) with (Z.to_nat o2 + Z.to_nat o1)%nat by lia.
  clear. generalize (Z.to_nat o1) as a, (Z.to_nat o2) as b. intros a b. revert l.
  induction a as [|a IH]; intros l.
  - rewrite Nat.add_0_r. reflexivity.
  - rewrite <- plus_n_Sm. destruct l; [rewrite !skipn_nil; reflexivity|]. cbn. apply IH.
Qed.
Lemma slice_app_split {A} (l : list A) off n m :
  0 <= off -> 0 <= n -> 0 <= m -> slice l off (n + m) = slice l off n ++ slice l (off + n) m.
Proof.
  intros. unfold slice. rewrite !Z2Nat.inj_add by lia.
  rewrite <- (firstn_skipn (Z.to_nat n) (firstn (Z.to_nat n + Z.to_nat m) (skipn (Z.to_nat off) l))).
  rewrite firstn_firstn, Nat.min_l by lia. f_equal. rewrite skipn_firstn_comm.
  replace (Z.to_nat n + Z.to_nat m - Z.to_nat n)%nat with (Z.to_nat m) by lia. f_equal.
  generalize (Z.to_nat off) as a, (Z.to_nat n) as b. intros a b. clear. revert l.
  induction a as [|a IH]; intros l; [reflexivity|].
  destruct l; [rewrite !skipn_nil; reflexivity|]. cbn. apply IH.
Qed.
Lemma slice_blit_same {A} (l : list A) off d :
  0 <= off -> off + zlen d <= zlen l -> slice (blit l off d) off (zlen d) = d.
Proof.
  intros. unfold slice, blit, zlen in *. rewrite skipn_app, firstn_length, skipn_all2 by (rewrite firstn_length; lia).
  cbn. replace (Z.to_nat off - Nat.min (Z.to_nat off) (length l))%nat with 0%nat by lia.
  rewrite Nat2Z.id. cbn. rewrite firstn_app, Nat.sub_diag, firstn_all. cbn. apply app_nil_r.
Qed.
Lemma slice_blit_out (l : list Z) off d o n :
  0 <= off -> off + zlen d <= zlen l -> 0 <= o -> 0 <= n -> o + n <= zlen l ->
  o + n <= off \/ off + zlen d <= o ->
  slice (blit l off d) o n = slice l o n.
Proof.
  intros H1 H2 H3 H4 H5 H6. pose proof (zlen_nonneg d) as Hd.
  apply list_extZ.
  - rewrite !zlen_slice; rewrite ?zlen_blit; lia.
  - intros i Hi. rewrite zlen_slice in Hi by (rewrite ?zlen_blit; lia).
    rewrite !nthZ_slice by lia. rewrite nthZ_blit by lia.
    replace ((off <=? o + i) && (o + i <? off + zlen d)) with false by lia. reflexivity.
Qed.
Lemma blit_nil {A} (l : list A) off : blit l off [] = l.
Proof. unfold blit. cbn [app length]. rewrite Nat.add_0_r. apply firstn_skipn. Qed.

Lemma rd_ok l i : 0 <= i < zlen l -> rd l i = Ok (nthZ l i).
Proof. intros. unfold rd. replace (inb (zlen l) i 1) with true; [reflexivity|]. symmetry. apply inb_true. lia. Qed.
Lemma rd_ub l i : ~ (0 <= i < zlen l) -> rd l i = UB.
Proof. intros. unfold rd. replace (inb (zlen l) i 1) with false; [reflexivity|]. symmetry. apply inb_false. lia. Qed.
Lemma rd_slice_ok {A} (l : list A) off n :
  0 <= off -> 0 <= n -> off + n <= zlen l -> rd_slice l off n = Ok (slice l off n).
Proof. intros. unfold rd_slice. replace (inb (zlen l) off n) with true; [reflexivity|]. symmetry. apply inb_true. lia. Qed.
Lemma wr_slice_ok {A} (l : list A) off d :
  0 <= off -> off + zlen d <= zlen l -> wr_slice l off d = Ok (blit l off d).
Proof.
  intros. unfold wr_slice. pose proof (zlen_nonneg d).
  replace (inb (zlen l) off (zlen d)) with true; [reflexivity|]. symmetry. apply inb_true. lia.
Qed.
Lemma wr_slice_ub {A} (l : list A) off d :
  ~ (0 <= off /\ off + zlen d <= zlen l) -> wr_slice l off d = UB.
Proof.
  intros. unfold wr_slice. pose proof (zlen_nonneg d).
  replace (inb (zlen l) off (zlen d)) with false; [reflexivity|]. symmetry. apply inb_false. lia.
Qed.
Lemma bytes_nthZ l i : bytes l -> is_byte (nthZ l i).
Proof.
  intros H. unfold nthZ. destruct (Nat.ltb_spec (Z.to_nat i) (length l)) as [Hi|Hi].
  - unfold bytes in H. rewrite Forall_forall in H. apply H. apply nth_In. exact Hi.
  - rewrite nth_overflow by lia. unfold is_byte. lia.
Qed.
Lemma bytes_app a b : bytes (a ++ b) <-> bytes a /\ bytes b.
Proof. unfold bytes. apply Forall_app. Qed.
Lemma bytes_firstn n l : bytes l -> bytes (firstn n l).
Proof. unfold bytes. intros H. rewrite Forall_forall in *. intros x Hx. apply H. rewrite <- (firstn_skipn n l). apply in_or_app. auto. Qed.
Lemma bytes_skipn n l : bytes l -> bytes (skipn n l).
Proof. unfold bytes. intros H. rewrite Forall_forall in *. intros x Hx. apply H. rewrite <- (firstn_skipn n l). apply in_or_app. auto. Qed.
Lemma bytes_blit l o d : bytes l -> bytes d -> bytes (blit l o d).
Proof. intros. unfold blit. rewrite !bytes_app. auto using bytes_firstn, bytes_skipn. Qed.
Lemma bytes_repeat0 n : bytes (repeat 0 n).
Proof. unfold bytes. apply Forall_forall. intros x Hx. apply repeat_spec in Hx. subst. unfold is_byte. lia. Qed.

(** ** Ranges of concatenations *)
Lemma slice_mid {A} (a x c : list A) : slice (a ++ x ++ c) (zlen a) (zlen x) = x.
Proof.
  unfold slice, zlen. rewrite !Nat2Z.id. rewrite skipn_app, Nat.sub_diag, skipn_all. cbn [app skipn].
  rewrite firstn_app, Nat.sub_diag, firstn_all. cbn. apply app_nil_r.
Qed.
Lemma blit_mid {A} (a x y c : list A) : zlen y = zlen x -> blit (a ++ x ++ c) (zlen a) y = a ++ y ++ c.
Proof.
  unfold blit, zlen. intros H. rewrite !Nat2Z.id. rewrite firstn_app, Nat.sub_diag, firstn_all. cbn [firstn].
  rewrite app_nil_r. f_equal. f_equal. rewrite skipn_app, skipn_all2 by lia. cbn [app].
  replace (length a + length y - length a)%nat with (length x) by lia.
  rewrite skipn_app, skipn_all, Nat.sub_diag. reflexivity.
Qed.
Lemma rd_slice_mid {A} (a x c : list A) off n :
  off = zlen a -> n = zlen x -> rd_slice (a ++ x ++ c) off n = Ok x.
Proof.
  intros -> ->. rewrite rd_slice_ok.
  - rewrite slice_mid. reflexivity.
  - apply zlen_nonneg.
  - apply zlen_nonneg.
  - rewrite !zlen_app. pose proof (zlen_nonneg c). lia.
Qed.
Lemma wr_slice_mid {A} (a x y c : list A) off :
  off = zlen a -> zlen y = zlen x -> wr_slice (a ++ x ++ c) off y = Ok (a ++ y ++ c).
Proof.
  intros -> H. rewrite wr_slice_ok.
  - rewrite blit_mid by assumption. reflexivity.
  - apply zlen_nonneg.
  - rewrite !zlen_app. pose proof (zlen_nonneg c). lia.
Qed.
Lemma split_at {A} (l : list A) n : 0 <= n <= zlen l -> exists a b, l = a ++ b /\ zlen a = n.
Proof.
  intros H. exists (firstn (Z.to_nat n) l), (skipn (Z.to_nat n) l).
  split; [symmetry; apply firstn_skipn|]. unfold zlen in *. rewrite firstn_length. lia.
Qed.
Lemma zlen_0 {A} (l : list A) : zlen l = 0 -> l = [].
Proof. destruct l; [reflexivity|]. rewrite zlen_cons. pose proof (zlen_nonneg l). lia. Qed.

(** ** Boolean equality of [Z] lists *)
Fixpoint eqbl (a b : list Z) : bool :=
  match a, b with
  | [], [] => true
  | x :: a', y :: b' => (x =? y) && eqbl a' b'
  | _, _ => false
  end.
Lemma eqbl_spec a b : eqbl a b = true <-> a = b.
Proof.
  revert b. induction a as [|x a IH]; intros [|y b]; cbn; try (split; congruence).
  rewrite andb_true_iff, Z.eqb_eq, IH. split; [intros [-> ->]; reflexivity|]. intros H; injection H; auto.
Qed.
Lemma eqbl_refl a : eqbl a a = true.
Proof. apply eqbl_spec. reflexivity. Qed.
Lemma eqbl_neq a b : a <> b -> eqbl a b = false.
Proof. intros H. destruct (eqbl a b) eqn:E; [apply eqbl_spec in E; contradiction|reflexivity]. Qed.
