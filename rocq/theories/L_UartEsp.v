(** Lemmas about the ESP32 packet UART. *)
From Verif Require Import Base S_Uart M_UartEsp.

Lemma only_last_none x l : ~ In x l -> only_last x l.
Proof. intros H a b E. exfalso. apply H. rewrite E. apply in_or_app. right. left. reflexivity. Qed.
Lemma only_last_snoc x l y : ~ In x l -> only_last x (l ++ [y]).
Proof.
  intros H a b E. destruct b as [|z b _] using rev_ind; [reflexivity|]. exfalso. apply H.
  change (a ++ x :: b ++ [z]) with (a ++ (x :: b) ++ [z]) in E. rewrite app_assoc in E. apply app_inj_tail in E. destruct E as [E _].
  rewrite E. apply in_or_app. right. left. reflexivity.
Qed.
Lemma overwritten_len mem data : zlen data <= zlen mem -> zlen (overwritten mem data) = zlen mem.
Proof. unfold overwritten, zlen. rewrite app_length, skipn_length. lia. Qed.
Lemma overwrite_next mem data b : zlen data + 1 <= zlen mem ->
  wr (overwritten mem data) (zlen data) b = Ok (overwritten mem (data ++ [b])).
Proof.
  intros H. unfold wr, wr_slice. pose proof (zlen_nonneg data). rewrite overwritten_len by lia. change (zlen [b]) with 1.
  replace (inb (zlen mem) (zlen data) 1) with true by (symmetry; apply inb_true; lia). f_equal.
  unfold blit, overwritten, zlen. rewrite Nat2Z.id. rewrite firstn_app, firstn_all, Nat.sub_diag. cbn [firstn length]. rewrite app_nil_r.
  rewrite skipn_app. rewrite (skipn_all2 data) by lia. replace (length data + 1 - length data)%nat with 1%nat by lia. cbn [app].
  rewrite <- app_assoc, app_length. cbn [app length]. do 2 f_equal. replace (length data + 1)%nat with (S (length data)) by lia.
  rewrite <- (Nat.add_1_l (length data)). clear. revert mem. induction (length data) as [|n IH]; intros mem; [reflexivity|].
  destruct mem as [|x mem]; [reflexivity|]. cbn [skipn Nat.add]. apply IH.
Qed.
Lemma read_next mem data b : rd (overwritten mem (data ++ [b])) (zlen data) = Ok b.
Proof.
  unfold rd, overwritten. pose proof (zlen_nonneg data). pose proof (zlen_nonneg (skipn (length (data ++ [b])) mem)).
  replace (inb _ (zlen data) 1) with true by (symmetry; apply inb_true; rewrite !zlen_app; change (zlen [b]) with 1; lia).
  f_equal. rewrite <- app_assoc. rewrite nthZ_app2 by lia. rewrite Z.sub_diag. reflexivity.
Qed.

Lemma received_S rx n : received rx (S n) = received rx n ++ match rx n with Some b => [b] | None => [] end.
Proof. reflexivity. Qed.
Lemma received_mono rx n m : (n <= m)%nat -> exists l, received rx m = received rx n ++ l.
Proof.
  induction 1 as [|m _ [l E]]; [exists []; symmetry; apply app_nil_r|]. rewrite received_S, E, <- app_assoc. eexists. reflexivity.
Qed.

(** ** ReceiveUntil *)
(** nothing ends the loop within [n] rounds *)
Lemma received_from rx m n : received rx (m + n) = received rx m ++ received (from rx m) n.
Proof.
  induction n as [|n IH]; [rewrite Nat.add_0_r; cbn [received]; rewrite app_nil_r; reflexivity|].
  replace (m + S n)%nat with (S (m + n)) by lia. cbn [received]. rewrite IH, <- app_assoc. reflexivity.
Qed.
Lemma received_keeps rx (x : Z) n m : (n <= m)%nat -> In x (received rx n) -> In x (received rx m).
Proof. intros H I. replace m with (n + (m - n))%nat by lia. rewrite received_from. apply in_or_app. left. exact I. Qed.
Definition until_runs (ticks : nat -> Z) (rx : nat -> option Z) (size e t maxTime : Z) (nt nr n : nat) : Prop :=
  (forall k, (k < n)%nat -> zlen (received rx (nr + k)) < size) /\ ~ In e (received rx (nr + n)) /\
  (t <> 0 -> forall i, (i < n)%nat -> ticks (nt + i)%nat < maxTime).
Definition until_post (ticks : nat -> Z) (rx : nat -> option Z) (mem : list Z) (size e t maxTime st : Z) (nt nr : nat) (ws : list Z) (o : outcome) : Prop :=
  exists k, reads o = (nr + k)%nat /\
  omem o = overwritten mem (received rx (reads o)) /\ ocount o = zlen (received rx (reads o)) /\
  zlen (received rx (reads o)) <= size /\ only_last e (received rx (reads o)) /\
  (t <> 0 -> forall i, (i < k)%nat -> ticks (nt + i)%nat < maxTime) /\
  waits o = ws ++ map (fun i => if t =? 0 then u32 (maxTime - st) else maxTime - ticks (nt + i)%nat) (seq 0 k) /\
  (((ends_with e (received rx (reads o)) \/ zlen (received rx (reads o)) = size) /\ clocks o = (if t =? 0 then nt else (nt + k)%nat)) \/
   (t <> 0 /\ clocks o = (nt + k + 1)%nat /\ maxTime <= ticks (nt + k)%nat)).
Lemma until_loop ticks rx mem size e t maxTime : (forall n, 0 <= ticks n < 4294967296) -> 0 <= maxTime < 4294967296 ->
  0 <= size < 65536 -> size <= zlen mem -> forall fuel st nt nr ws,
  ~ In e (received rx nr) -> zlen (received rx nr) <= size ->
  let r := untilLoop fuel ticks rx size e t maxTime (overwritten mem (received rx nr)) st (zlen (received rx nr)) nt nr ws in
  (r = Fuel /\ until_runs ticks rx size e t maxTime nt nr fuel) \/
  (exists o, r = Ok o /\ until_post ticks rx mem size e t maxTime st nt nr ws o /\ ~ until_runs ticks rx size e t maxTime nt nr fuel).
Proof.
  intros Hck Hmt Hs Hmem. induction fuel as [|fuel IH]; intros st nt nr ws He Hlen; cbn [untilLoop].
  { left. split; [reflexivity|]. split; [intros k Hk; lia|]. split; [rewrite Nat.add_0_r; exact He|intros _ i Hi; lia]. }
  destruct (Z.ltb_spec (zlen (received rx nr)) size) as [Hlt|Hge].
  2: { right. eexists. split; [reflexivity|]. split.
    - exists O. cbn [reads omem ocount waits clocks]. rewrite !Nat.add_0_r. split; [reflexivity|]. split; [reflexivity|]. split; [reflexivity|]. split; [exact Hlen|].
      split; [apply only_last_none; exact He|]. split; [intros _ i Hi; lia|]. cbn [seq map]. split; [symmetry; apply app_nil_r|]. left. split; [right; lia|].
      destruct (t =? 0); reflexivity.
    - intros [H _]. specialize (H O ltac:(lia)). rewrite Nat.add_0_r in H. lia. }
  (* one round: shift the facts about the rest by one *)
  set (st' := if t =? 0 then st else ticks nt). set (nt' := if t =? 0 then nt else S nt). set (go := if t =? 0 then true else ticks nt <? maxTime).
  assert (E3 : (if t =? 0 then (true, st, nt) else (ticks nt <? maxTime, ticks nt, S nt)) = (go, st', nt')) by (unfold go, st', nt'; destruct (t =? 0); reflexivity).
  rewrite E3. clear E3.
  destruct go eqn:Ego.
  2: { unfold go in Ego. destruct (Z.eqb_spec t 0) as [Et|Et]; [discriminate|].
    right. eexists. split; [reflexivity|]. split.
    - exists O. cbn [reads omem ocount waits clocks]. rewrite !Nat.add_0_r. split; [reflexivity|]. split; [reflexivity|]. split; [reflexivity|]. split; [exact Hlen|].
      split; [apply only_last_none; exact He|]. split; [intros _ i Hi; lia|]. cbn [seq map]. split; [symmetry; apply app_nil_r|]. right. split; [exact Et|].
      split; [unfold nt'; lia|lia].
    - intros [_ [_ H]]. specialize (H Et O ltac:(lia)). rewrite Nat.add_0_r in H. lia. }
  assert (Hgo : t <> 0 -> ticks nt < maxTime) by (intros Ht; unfold go in Ego; replace (t =? 0) with false in Ego by lia; lia).
  set (w := u32 (maxTime - st')).
  assert (Ew : w = if t =? 0 then u32 (maxTime - st) else maxTime - ticks nt).
  { unfold w, st'. destruct (Z.eqb_spec t 0) as [Et|Et]; [reflexivity|]. unfold u32. apply Z.mod_small. specialize (Hgo Et). specialize (Hck nt). lia. }
  assert (RUN : forall n, until_runs ticks rx size e t maxTime nt nr (S n) <-> ~ In e (received rx (S nr)) /\ until_runs ticks rx size e t maxTime nt' (S nr) n).
  { intros n. unfold until_runs. split.
    - intros [A [B C]]. replace (nr + S n)%nat with (S nr + n)%nat in B by lia. split.
      + intros K. apply B. destruct (received_mono rx (S nr) (S nr + n) ltac:(lia)) as [l El]. rewrite El. apply in_or_app. left. exact K.
      + split; [intros k Hk; specialize (A (S k) ltac:(lia)); replace (nr + S k)%nat with (S nr + k)%nat in A by lia; exact A|]. split; [exact B|].
        intros Ht i Hi. specialize (C Ht (S i) ltac:(lia)). unfold nt'. replace (t =? 0) with false by lia. replace (nt + S i)%nat with (S nt + i)%nat in C by lia. exact C.
    - intros [K [A [B C]]]. split; [|split].
      + intros [|k] Hk; [rewrite Nat.add_0_r; exact Hlt|]. replace (nr + S k)%nat with (S nr + k)%nat by lia. apply A. lia.
      + replace (nr + S n)%nat with (S nr + n)%nat by lia. exact B.
      + intros Ht [|i] Hi; [rewrite Nat.add_0_r; apply Hgo; exact Ht|]. specialize (C Ht i ltac:(lia)). unfold nt' in C. replace (t =? 0) with false in C by lia.
        replace (nt + S i)%nat with (S nt + i)%nat by lia. exact C. }
  assert (POST : forall o, until_post ticks rx mem size e t maxTime st' nt' (S nr) (ws ++ [w]) o -> until_post ticks rx mem size e t maxTime st nt nr ws o).
  { intros o [k [A [B [C [D [F [G [W R]]]]]]]]. exists (S k). split; [lia|]. split; [exact B|]. split; [exact C|]. split; [exact D|]. split; [exact F|]. split; [|split].
    - intros Ht [|i] Hi; [rewrite Nat.add_0_r; apply Hgo; exact Ht|]. specialize (G Ht i ltac:(lia)). unfold nt' in G. replace (t =? 0) with false in G by lia.
      replace (nt + S i)%nat with (S nt + i)%nat by lia. exact G.
    - rewrite W, <- app_assoc. f_equal. cbn [app seq map]. rewrite Nat.add_0_r, Ew. f_equal. rewrite <- seq_shift, map_map. apply map_ext. intros i.
      unfold st', nt'. destruct (t =? 0); [reflexivity|]. replace (nt + S i)%nat with (S nt + i)%nat by lia. reflexivity.
    - unfold nt' in R. destruct (Z.eqb_spec t 0) as [Et|Et].
      + destruct R as [R|[R _]]; [left; exact R|contradiction].
      + destruct R as [[R1 R2]|[_ [R2 R3]]]; [left; split; [exact R1|lia]|right; split; [exact Et|]]. split; [lia|]. replace (nt + S k)%nat with (S nt + k)%nat by lia. exact R3. }
  destruct (rx nr) as [b|] eqn:Erx.
  - assert (ES : received rx (S nr) = received rx nr ++ [b]) by (rewrite received_S, Erx; reflexivity).
    rewrite overwrite_next by lia. cbn [bind]. rewrite read_next. cbn [bind]. pose proof (zlen_nonneg (received rx nr)) as Hnn.
    assert (EP : u16 (zlen (received rx nr) + 1) = zlen (received rx (S nr))) by (unfold u16; rewrite Z.mod_small by lia; rewrite ES, zlen_app; reflexivity).
    rewrite EP, <- ES. destruct (Z.eqb_spec b e) as [Eb|Eb].
    + right. eexists. split; [reflexivity|]. split.
      * apply POST. exists O. cbn [reads omem ocount waits clocks]. rewrite !Nat.add_0_r. split; [reflexivity|]. split; [reflexivity|]. split; [reflexivity|].
        split; [rewrite ES, zlen_app; change (zlen [b]) with 1; lia|]. split; [rewrite ES; apply only_last_snoc; exact He|]. split; [intros _ i Hi; lia|].
        cbn [seq map]. split; [symmetry; apply app_nil_r|]. left. split; [left; exists (received rx nr); rewrite ES, Eb; reflexivity|]. destruct (t =? 0); reflexivity.
      * rewrite RUN. intros [K _]. apply K. rewrite ES. apply in_or_app. right. left. exact Eb.
    + assert (He' : ~ In e (received rx (S nr))) by (rewrite ES; intros K; apply in_app_or in K; destruct K as [K|[K|[]]]; [exact (He K)|exact (Eb K)]).
      destruct (IH st' nt' (S nr) (ws ++ [w]) He') as [[E R]|[o [E [P R]]]]; [rewrite ES, zlen_app; change (zlen [b]) with 1; lia| |].
      * left. split; [exact E|]. apply RUN. auto.
      * right. exists o. split; [exact E|]. split; [apply POST; exact P|]. rewrite RUN. tauto.
  - assert (ES : received rx (S nr) = received rx nr) by (rewrite received_S, Erx; apply app_nil_r).
    rewrite <- ES. rewrite <- ES in He, Hlen.
    destruct (IH st' nt' (S nr) (ws ++ [w]) He Hlen) as [[E R]|[o [E [P R]]]].
    + left. split; [exact E|]. apply RUN. auto.
    + right. exists o. split; [exact E|]. split; [apply POST; exact P|]. rewrite RUN. tauto.
Qed.

(** ** ReceiveBetween *)
(** search: either [k] other bytes and then a request without a byte, or [k] other bytes and then the
    start byte *)
Lemma find_loop rx s st maxTime : st <= maxTime -> forall fuel x mem nr ws, 
  let r := findLoop fuel rx s st maxTime (x :: mem) nr ws in
  let noise n := forall k, (k < n)%nat -> exists b, rx (nr + k)%nat = Some b /\ b <> s in
  (r = Fuel /\ noise fuel) \/
  (exists k x', r = Ok (false, x' :: mem, (nr + k + 1)%nat, ws ++ repeat (u32 (maxTime - st)) (k + 1)) /\ noise k /\ rx (nr + k)%nat = None /\ (k < fuel)%nat) \/
  (exists k, r = Ok (true, s :: mem, (nr + k + 1)%nat, ws ++ repeat (u32 (maxTime - st)) (k + 1)) /\ noise k /\ rx (nr + k)%nat = Some s /\ (k < fuel)%nat).
Proof.
  intros Hst. induction fuel as [|fuel IH]; intros x mem nr ws; cbn [findLoop]; [left; split; [reflexivity|intros k Hk; lia]|].
  replace (st <=? maxTime) with true by lia. destruct (rx nr) as [b|] eqn:Erx.
  - assert (E1 : wr (x :: mem) 0 b = Ok (b :: mem)).
    { unfold wr, wr_slice. replace (inb (zlen (x :: mem)) 0 (zlen [b])) with true; [reflexivity|]. symmetry. apply inb_true.
      rewrite (zlen_cons x mem). change (zlen [b]) with 1. pose proof (zlen_nonneg mem). lia. }
    assert (E2 : rd (b :: mem) 0 = Ok b).
    { unfold rd. replace (inb (zlen (b :: mem)) 0 1) with true; [reflexivity|]. symmetry. apply inb_true. rewrite zlen_cons. pose proof (zlen_nonneg mem). lia. }
    rewrite E1. cbn [bind]. rewrite E2. cbn [bind]. destruct (Z.eqb_spec b s) as [Eb|Eb].
    + right. right. exists O. rewrite Nat.add_0_r. split; [subst b; rewrite Nat.add_1_r; reflexivity|]. split; [intros k Hk; lia|]. split; [congruence|lia].
    + assert (SH : forall n, (forall k, (k < n)%nat -> exists b, rx (S nr + k)%nat = Some b /\ b <> s) -> forall k, (k < S n)%nat -> exists b, rx (nr + k)%nat = Some b /\ b <> s).
      { intros n H [|k] Hk; [rewrite Nat.add_0_r; exists b; auto|]. replace (nr + S k)%nat with (S nr + k)%nat by lia. apply H. lia. }
      assert (WS : forall k, (ws ++ [u32 (maxTime - st)]) ++ repeat (u32 (maxTime - st)) (k + 1) = ws ++ repeat (u32 (maxTime - st)) (S k + 1)).
      { intros k. rewrite <- app_assoc. f_equal. }
      destruct (IH b mem (S nr) (ws ++ [u32 (maxTime - st)])) as [[E N]|[[k [x' [E [N [R F]]]]]|[k [E [N [R F]]]]]].
      * left. split; [exact E|apply SH; exact N].
      * right. left. exists (S k), x'. rewrite E, WS. split; [replace (nr + S k + 1)%nat with (S nr + k + 1)%nat by lia; reflexivity|]. split; [apply SH; exact N|]. replace (nr + S k)%nat with (S nr + k)%nat by lia. split; [exact R|lia].
      * right. right. exists (S k). rewrite E, WS. split; [replace (nr + S k + 1)%nat with (S nr + k + 1)%nat by lia; reflexivity|]. split; [apply SH; exact N|]. replace (nr + S k)%nat with (S nr + k)%nat by lia. split; [exact R|lia].
  - right. left. exists O, x. rewrite Nat.add_0_r. split; [rewrite Nat.add_1_r; reflexivity|]. split; [intros k Hk; lia|]. split; [exact Erx|lia].
Qed.
Lemma received_noise rx s n : (forall k, (k < n)%nat -> exists b, rx k = Some b /\ b <> s) -> zlen (received rx n) = Z.of_nat n /\ ~ In s (received rx n).
Proof.
  induction n as [|n IH]; intros H; [split; [reflexivity|intros []]|]. destruct IH as [I1 I2]; [intros k Hk; apply H; lia|].
  destruct (H n ltac:(lia)) as [b [E Nb]]. rewrite received_S, E. split; [rewrite zlen_app, I1; change (zlen [b]) with 1; lia|].
  intros K. apply in_app_or in K. destruct K as [K|[K|[]]]; [exact (I2 K)|exact (Nb K)].
Qed.

(** the bytes after the prefix [pre] of everything received *)
Definition rest_runs (ticks : nat -> Z) (rx : nat -> option Z) (pre : list Z) (size e maxTime : Z) (nt nr n : nat) : Prop :=
  (forall k, (k < n)%nat -> ticks (nt + k)%nat <= maxTime /\ 1 + zlen (skipn (length pre) (received rx (nr + k))) < size) /\
  ~ In e (skipn (length pre) (received rx (nr + n))).
Definition rest_post (ticks : nat -> Z) (rx : nat -> option Z) (mem pre : list Z) (x size e maxTime : Z) (nt nr : nat) (ws : list Z) (o : outcome) : Prop :=
  exists k rest, reads o = (nr + k)%nat /\ received rx (reads o) = pre ++ rest /\
  omem o = overwritten mem (x :: rest) /\ ocount o = 1 + zlen rest /\ ocount o <= size /\ only_last e rest /\
  (forall i, (i < k)%nat -> ticks (nt + i)%nat <= maxTime) /\
  waits o = ws ++ map (fun i => maxTime - ticks (nt + i)%nat) (seq 0 k) /\
  ((ends_with e rest /\ clocks o = (nt + k)%nat) \/
   (ocount o = size /\ clocks o = (nt + k + 1)%nat) \/
   (clocks o = (nt + k + 1)%nat /\ maxTime < ticks (nt + k)%nat)).
Lemma rest_loop ticks rx mem pre x size e maxTime : (forall n, 0 <= ticks n < 4294967296) -> 0 <= maxTime < 4294967296 ->
  0 <= size < 65536 -> size <= zlen mem -> forall fuel nt nr rest ws,
  received rx nr = pre ++ rest -> ~ In e rest -> 1 + zlen rest <= size ->
  let r := restLoop fuel ticks rx size e maxTime (overwritten mem (x :: rest)) (1 + zlen rest) nt nr ws in
  (r = Fuel /\ rest_runs ticks rx pre size e maxTime nt nr fuel) \/
  (exists o, r = Ok o /\ rest_post ticks rx mem pre x size e maxTime nt nr ws o /\ ~ rest_runs ticks rx pre size e maxTime nt nr fuel).
Proof.
  intros Hck Hmt Hs Hmem. induction fuel as [|fuel IH]; intros nt nr rest ws Hrec He Hlen; cbn [restLoop].
  { left. split; [reflexivity|]. split; [intros k Hk; lia|]. rewrite Nat.add_0_r, Hrec, skipn_app, skipn_all, Nat.sub_diag. exact He. }
  assert (Hsk : skipn (length pre) (received rx nr) = rest) by (rewrite Hrec, skipn_app, skipn_all, Nat.sub_diag; reflexivity).
  destruct (Z.leb_spec (ticks nt) maxTime) as [Ht|Ht].
  2: { right. eexists. split; [reflexivity|]. split.
    - exists O, rest. cbn [reads omem ocount waits clocks]. rewrite !Nat.add_0_r. split; [reflexivity|]. split; [exact Hrec|]. split; [reflexivity|]. split; [reflexivity|].
      split; [exact Hlen|]. split; [apply only_last_none; exact He|]. split; [intros i Hi; lia|]. cbn [seq map]. split; [symmetry; apply app_nil_r|].
      right. right. split; [lia|exact Ht].
    - intros [H _]. specialize (H O ltac:(lia)). rewrite Nat.add_0_r in H. lia. }
  destruct (Z.eqb_spec (1 + zlen rest) size) as [Hfull|Hfull].
  { right. eexists. split; [reflexivity|]. split.
    - exists O, rest. cbn [reads omem ocount waits clocks]. rewrite !Nat.add_0_r. split; [reflexivity|]. split; [exact Hrec|]. split; [reflexivity|]. split; [reflexivity|].
      split; [exact Hlen|]. split; [apply only_last_none; exact He|]. split; [intros i Hi; lia|]. cbn [seq map]. split; [symmetry; apply app_nil_r|].
      right. left. split; [exact Hfull|lia].
    - intros [H _]. specialize (H O ltac:(lia)). rewrite !Nat.add_0_r, Hsk in H. lia. }
  set (w := u32 (maxTime - ticks nt)).
  assert (Ew : w = maxTime - ticks nt) by (unfold w, u32; apply Z.mod_small; specialize (Hck nt); lia).
  assert (RUN : forall n, rest_runs ticks rx pre size e maxTime nt nr (S n) <-> ~ In e (skipn (length pre) (received rx (S nr))) /\ rest_runs ticks rx pre size e maxTime (S nt) (S nr) n).
  { intros n. unfold rest_runs. split.
    - intros [A B]. replace (nr + S n)%nat with (S nr + n)%nat in B by lia. split.
      + intros K. apply B. destruct (received_mono rx (S nr) (S nr + n) ltac:(lia)) as [l El]. rewrite El, skipn_app. apply in_or_app. left. exact K.
      + split; [intros k Hk; specialize (A (S k) ltac:(lia)); replace (nr + S k)%nat with (S nr + k)%nat in A by lia; replace (nt + S k)%nat with (S nt + k)%nat in A by lia; exact A|exact B].
    - intros [K [A B]]. split.
      + intros [|k] Hk; [rewrite !Nat.add_0_r, Hsk; lia|]. replace (nr + S k)%nat with (S nr + k)%nat by lia. replace (nt + S k)%nat with (S nt + k)%nat by lia. apply A. lia.
      + replace (nr + S n)%nat with (S nr + n)%nat by lia. exact B. }
  assert (POST : forall o, rest_post ticks rx mem pre x size e maxTime (S nt) (S nr) (ws ++ [w]) o -> rest_post ticks rx mem pre x size e maxTime nt nr ws o).
  { intros o [k [r [A [B [C [D [F [G [J [W R]]]]]]]]]]. exists (S k), r. split; [lia|]. split; [exact B|]. split; [exact C|]. split; [exact D|]. split; [exact F|]. split; [exact G|].
    split; [|split].
    - intros [|i] Hi; [rewrite Nat.add_0_r; exact Ht|]. replace (nt + S i)%nat with (S nt + i)%nat by lia. apply J. lia.
    - rewrite W, <- app_assoc. f_equal. cbn [app seq map]. rewrite Nat.add_0_r, Ew. f_equal. rewrite <- seq_shift, map_map. apply map_ext. intros i.
      replace (nt + S i)%nat with (S nt + i)%nat by lia. reflexivity.
    - replace (nt + S k)%nat with (S nt + k)%nat by lia. destruct R as [[R1 R2]|[[R1 R2]|[R1 R2]]]; [left; split; [exact R1|lia]|right; left; split; [exact R1|lia]|right; right; split; [lia|exact R2]]. }
  destruct (rx nr) as [b|] eqn:Erx.
  - assert (ES : received rx (S nr) = pre ++ rest ++ [b]) by (rewrite received_S, Erx, Hrec, <- app_assoc; reflexivity).
    assert (Z1 : 1 + zlen rest = zlen (x :: rest)) by (rewrite zlen_cons; reflexivity). rewrite Z1.
    rewrite overwrite_next by lia. cbn [bind]. rewrite read_next. cbn [bind]. pose proof (zlen_nonneg rest) as Hnn.
    assert (EP : u16 (zlen (x :: rest) + 1) = 1 + zlen (rest ++ [b])) by (unfold u16; rewrite Z.mod_small by lia; rewrite zlen_app, zlen_cons; change (zlen [b]) with 1; lia).
    rewrite EP. change ((x :: rest) ++ [b]) with (x :: rest ++ [b]). 
    assert (HL2 : 1 + zlen (rest ++ [b]) <= size) by (rewrite zlen_app; change (zlen [b]) with 1; lia).
    assert (Hsk2 : skipn (length pre) (received rx (S nr)) = rest ++ [b]) by (rewrite ES, skipn_app, skipn_all, Nat.sub_diag; reflexivity).
    destruct (Z.eqb_spec b e) as [Eb|Eb].
    + right. eexists. split; [reflexivity|]. split.
      * apply POST. exists O, (rest ++ [b]). cbn [reads omem ocount waits clocks]. rewrite !Nat.add_0_r. split; [reflexivity|]. split; [exact ES|]. split; [reflexivity|]. split; [reflexivity|].
        split; [exact HL2|]. split; [apply only_last_snoc; exact He|]. split; [intros i Hi; lia|]. cbn [seq map]. split; [symmetry; apply app_nil_r|].
        left. split; [exists rest; rewrite Eb; reflexivity|reflexivity].
      * rewrite RUN, Hsk2. intros [K _]. apply K. apply in_or_app. right. left. exact Eb.
    + assert (He' : ~ In e (rest ++ [b])) by (intros K; apply in_app_or in K; destruct K as [K|[K|[]]]; [exact (He K)|exact (Eb K)]).
      destruct (IH (S nt) (S nr) (rest ++ [b]) (ws ++ [w]) ES He' HL2) as [[E R]|[o [E [P R]]]].
      * left. split; [exact E|]. apply RUN. rewrite Hsk2. auto.
      * right. exists o. split; [exact E|]. split; [apply POST; exact P|]. rewrite RUN. tauto.
  - assert (ES : received rx (S nr) = pre ++ rest) by (rewrite received_S, Erx, app_nil_r; exact Hrec).
    assert (Hsk2 : skipn (length pre) (received rx (S nr)) = rest) by (rewrite ES, skipn_app, skipn_all, Nat.sub_diag; reflexivity).
    destruct (IH (S nt) (S nr) rest (ws ++ [w]) ES He Hlen) as [[E R]|[o [E [P R]]]].
    + left. split; [exact E|]. apply RUN. rewrite Hsk2. auto.
    + right. exists o. split; [exact E|]. split; [apply POST; exact P|]. rewrite RUN. tauto.
Qed.
