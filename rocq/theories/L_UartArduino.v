(** Lemmas about the Arduino packet UART. *)
From Verif Require Import Base S_Uart M_UartArduino L_UartEsp.

(** ** Receive *)
Definition receive_runs (ticks : nat -> Z) (rx : nat -> option Z) (size maxTime : Z) (nt nr n : nat) : Prop :=
  forall k, (k < n)%nat -> ticks (nt + k)%nat < maxTime /\ zlen (received rx (nr + k)) < size.
Lemma receive_loop ticks rx mem size maxTime : byte_source rx -> 0 <= size < 65536 -> size <= zlen mem -> forall fuel nt nr,
  zlen (received rx nr) <= size ->
  let r := receiveLoop fuel ticks rx size maxTime (overwritten mem (received rx nr)) (zlen (received rx nr)) nt nr in
  (r = Fuel /\ receive_runs ticks rx size maxTime nt nr fuel) \/
  (exists k, r = Ok (overwritten mem (received rx (nr + k)), zlen (received rx (nr + k)), (nt + k + 1)%nat, (nr + k)%nat) /\
     zlen (received rx (nr + k)) <= size /\ receive_runs ticks rx size maxTime nt nr k /\ (k < fuel)%nat /\
     (maxTime <= ticks (nt + k)%nat \/ zlen (received rx (nr + k)) = size)).
Proof.
  intros Hb Hs Hmem. induction fuel as [|fuel IH]; intros nt nr Hlen; cbn [receiveLoop].
  { left. split; [reflexivity|intros k Hk; lia]. }
  destruct ((ticks nt <? maxTime) && (zlen (received rx nr) <? size)) eqn:Ego.
  2: { right. exists O. rewrite !Nat.add_0_r, Nat.add_1_r. split; [reflexivity|]. split; [exact Hlen|]. split; [intros k Hk; lia|]. split; [lia|lia]. }
  assert (Hgo : ticks nt < maxTime /\ zlen (received rx nr) < size) by lia.
  assert (STEP : forall l, received rx (S nr) = l -> zlen l <= size ->
    let r := receiveLoop fuel ticks rx size maxTime (overwritten mem l) (zlen l) (S nt) (S nr) in
    (r = Fuel /\ receive_runs ticks rx size maxTime nt nr (S fuel)) \/
    (exists k, r = Ok (overwritten mem (received rx (nr + k)), zlen (received rx (nr + k)), (nt + k + 1)%nat, (nr + k)%nat) /\
       zlen (received rx (nr + k)) <= size /\ receive_runs ticks rx size maxTime nt nr k /\ (k < S fuel)%nat /\
       (maxTime <= ticks (nt + k)%nat \/ zlen (received rx (nr + k)) = size))).
  { intros l El HL. subst l.
    assert (SH : forall n, receive_runs ticks rx size maxTime (S nt) (S nr) n -> receive_runs ticks rx size maxTime nt nr (S n)).
    { intros n H [|k] Hk; [rewrite !Nat.add_0_r; exact Hgo|]. specialize (H k ltac:(lia)). replace (nt + S k)%nat with (S nt + k)%nat by lia.
      replace (nr + S k)%nat with (S nr + k)%nat by lia. exact H. }
    destruct (IH (S nt) (S nr) HL) as [[E R]|[k [E [A [R [F D]]]]]].
    - left. split; [exact E|apply SH; exact R].
    - right. exists (S k). replace (nt + S k)%nat with (S nt + k)%nat by lia. replace (nr + S k)%nat with (S nr + k)%nat by lia.
      split; [exact E|]. split; [exact A|]. split; [apply SH; exact R|]. split; [lia|exact D]. }
  destruct (rx nr) as [b|] eqn:Erx.
  - assert (E8 : u8 b = b) by (unfold u8; apply Z.mod_small; exact (Hb _ _ Erx)). rewrite E8, overwrite_next by lia. cbn [bind].
    pose proof (zlen_nonneg (received rx nr)).
    replace (u16 (zlen (received rx nr) + 1)) with (zlen (received rx nr ++ [b])) by (unfold u16; rewrite zlen_app, Z.mod_small by lia; reflexivity).
    apply STEP; [rewrite received_S, Erx; reflexivity|rewrite zlen_app; change (zlen [b]) with 1; lia].
  - apply STEP; [rewrite received_S, Erx; apply app_nil_r|exact Hlen].
Qed.

(** ** readBytesUntil *)
Lemma delivers_snoc timed T e got b : delivers timed T e got -> timed (length got) T = Some b -> b <> e -> delivers timed T e (got ++ [b]).
Proof.
  intros [D1 D2] Hb Hne. split.
  - intros i c Hc. destruct (Nat.lt_ge_cases i (length got)) as [Hi|Hi].
    + rewrite nth_error_app1 in Hc by exact Hi. apply D1. exact Hc.
    + rewrite nth_error_app2 in Hc by exact Hi. destruct (i - length got)%nat as [|j] eqn:Ej; [|destruct j; discriminate].
      injection Hc as <-. replace i with (length got) by lia. exact Hb.
  - intros K. apply in_app_or in K. destruct K as [K|[K|[]]]; [exact (D2 K)|exact (Hne K)].
Qed.
Lemma read_until timed T e len mem pre : zlen pre + len <= zlen mem -> forall fuel got,
  delivers timed T e got -> zlen got <= len -> 
  let r := readBytesUntil fuel timed T e len (overwritten mem (pre ++ got)) (zlen pre) (zlen got) (length got) in
  (r = Fuel /\ exists got', delivers timed T e (got ++ got') /\ length got' = fuel) \/
  (exists got' n, r = Ok (overwritten mem (pre ++ got ++ got'), zlen (got ++ got'), n) /\ delivers timed T e (got ++ got') /\ zlen (got ++ got') <= len /\ (length got' < fuel)%nat /\
     ((zlen (got ++ got') = len /\ n = length (got ++ got')) \/
      (zlen (got ++ got') < len /\ n = S (length (got ++ got')) /\ (timed (length (got ++ got')) T = None \/ timed (length (got ++ got')) T = Some e)))).
Proof.
  intros Hmem. induction fuel as [|fuel IH]; intros got HD HL; cbn [readBytesUntil].
  { left. split; [reflexivity|]. exists []. rewrite app_nil_r. auto. }
  destruct (Z.ltb_spec (zlen got) len) as [Hlt|Hge].
  2: { right. exists [], (length got). rewrite !app_nil_r. split; [reflexivity|]. split; [exact HD|]. split; [exact HL|]. cbn [length]. split; [lia|]. left. split; [lia|reflexivity]. }
  destruct (timed (length got) T) as [b|] eqn:Eb.
  2: { right. exists [], (S (length got)). rewrite !app_nil_r. split; [reflexivity|]. split; [exact HD|]. split; [exact HL|]. cbn [length]. split; [lia|]. right. auto. }
  destruct (Z.eqb_spec b e) as [Ebe|Ebe].
  { right. exists [], (S (length got)). rewrite !app_nil_r. split; [reflexivity|]. split; [exact HD|]. split; [exact HL|]. cbn [length]. split; [lia|]. right.
    split; [exact Hlt|]. split; [reflexivity|]. right. rewrite Eb, Ebe. reflexivity. }
  assert (EW : wr (overwritten mem (pre ++ got)) (zlen pre + zlen got) b = Ok (overwritten mem (pre ++ got ++ [b]))).
  { rewrite <- zlen_app. rewrite app_assoc. apply overwrite_next. rewrite zlen_app. lia. }
  rewrite EW. cbn [bind]. pose proof (delivers_snoc _ _ _ _ _ HD Eb Ebe) as HD'.
  assert (HL' : zlen (got ++ [b]) <= len) by (rewrite zlen_app; change (zlen [b]) with 1; lia).
  replace (zlen got + 1) with (zlen (got ++ [b])) by (rewrite zlen_app; reflexivity).
  replace (S (length got)) with (length (got ++ [b])) by (rewrite app_length; cbn [length]; lia).
  destruct (IH (got ++ [b]) HD' HL') as [[E [g' [R L]]]|[g' [n [E [A [B [F D]]]]]]].
  - left. split; [exact E|]. exists (b :: g'). rewrite <- app_assoc in R. split; [exact R|]. cbn [length]. lia.
  - right. exists (b :: g'), n. rewrite <- !app_assoc in *. cbn [app] in *. split; [exact E|]. split; [exact A|]. split; [exact B|]. cbn [length]. split; [lia|exact D].
Qed.

Lemma read_until_ends timed T e len mem pre : zlen pre + len <= zlen mem -> forall fuel got,
  delivers timed T e got -> zlen got <= len -> len - zlen got < Z.of_nat fuel ->
  readBytesUntil fuel timed T e len (overwritten mem (pre ++ got)) (zlen pre) (zlen got) (length got) <> Fuel.
Proof.
  intros Hmem. induction fuel as [|fuel IH]; intros got HD HL HF; [lia|]. cbn [readBytesUntil].
  destruct (Z.ltb_spec (zlen got) len) as [Hlt|Hge]; [|discriminate].
  destruct (timed (length got) T) as [c|] eqn:Ec; [|discriminate]. destruct (Z.eqb_spec c e) as [He|He]; [discriminate|].
  replace (zlen pre + zlen got) with (zlen (pre ++ got)) by (rewrite zlen_app; reflexivity).
  rewrite overwrite_next by (rewrite zlen_app; lia). cbn [bind].
  assert (Z1 : zlen got + 1 = zlen (got ++ [c])) by (rewrite zlen_app; reflexivity). rewrite Z1.
  replace (S (length got)) with (length (got ++ [c])) by (rewrite app_length; cbn [length]; lia).
  rewrite <- app_assoc. apply IH; [apply delivers_snoc; assumption|lia|lia].
Qed.

(** ** The search of ReceiveBetween *)
Definition search_runs (ticks : nat -> Z) (rx : nat -> option Z) (s t maxTime : Z) (nt nr n : nat) : Prop :=
  forall k, (k < n)%nat -> rx (nr + k)%nat <> Some s /\ (t <> 0 -> ticks (nt + k)%nat < maxTime).
Lemma search_loop ticks rx s t maxTime : forall fuel nt nr,
  let r := searchLoop fuel ticks rx s t maxTime nt nr in
  (r = Fuel /\ search_runs ticks rx s t maxTime nt nr fuel) \/
  (exists k, (k < fuel)%nat /\ search_runs ticks rx s t maxTime nt nr k /\
    ((r = Ok (true, (if t =? 0 then nt else (nt + k + 1)%nat), (nr + k + 1)%nat) /\ rx (nr + k)%nat = Some s /\ (t <> 0 -> ticks (nt + k)%nat < maxTime)) \/
     (r = Ok (false, (nt + k + 1)%nat, (nr + k)%nat) /\ t <> 0 /\ maxTime <= ticks (nt + k)%nat))).
Proof.
  induction fuel as [|fuel IH]; intros nt nr; cbn [searchLoop]; [left; split; [reflexivity|intros k Hk; lia]|].
  set (nt' := if t =? 0 then nt else S nt). set (go := if t =? 0 then true else ticks nt <? maxTime).
  assert (E3 : (if t =? 0 then (true, nt) else (ticks nt <? maxTime, S nt)) = (go, nt')) by (unfold go, nt'; destruct (t =? 0); reflexivity).
  rewrite E3. clear E3. destruct go eqn:Ego.
  2: { unfold go in Ego. unfold nt'. destruct (Z.eqb_spec t 0) as [Et|Et]; [discriminate|]. right. exists O. rewrite !Nat.add_0_r, !Nat.add_1_r.
    split; [lia|]. split; [intros k Hk; lia|]. right. split; [reflexivity|]. split; [exact Et|lia]. }
  assert (Hgo : t <> 0 -> ticks nt < maxTime) by (intros Ht; unfold go in Ego; replace (t =? 0) with false in Ego by lia; lia).
  assert (REST : rx nr <> Some s -> 
    let r := searchLoop fuel ticks rx s t maxTime nt' (S nr) in
    (r = Fuel /\ search_runs ticks rx s t maxTime nt nr (S fuel)) \/
    (exists k, (k < S fuel)%nat /\ search_runs ticks rx s t maxTime nt nr k /\
      ((r = Ok (true, (if t =? 0 then nt else (nt + k + 1)%nat), (nr + k + 1)%nat) /\ rx (nr + k)%nat = Some s /\ (t <> 0 -> ticks (nt + k)%nat < maxTime)) \/
       (r = Ok (false, (nt + k + 1)%nat, (nr + k)%nat) /\ t <> 0 /\ maxTime <= ticks (nt + k)%nat)))).
  { intros Hns. assert (NTK : forall k, t <> 0 -> (nt' + k = nt + S k)%nat) by (intros k Ht; unfold nt'; replace (t =? 0) with false by lia; lia).
    assert (SH : forall n, search_runs ticks rx s t maxTime nt' (S nr) n -> search_runs ticks rx s t maxTime nt nr (S n)).
    { intros n H [|k] Hk; [rewrite !Nat.add_0_r; auto|]. destruct (H k ltac:(lia)) as [H1 H2]. replace (nr + S k)%nat with (S nr + k)%nat by lia.
      split; [exact H1|]. intros Ht. rewrite <- NTK by exact Ht. apply H2. exact Ht. }
    destruct (IH nt' (S nr)) as [[E R]|[k [F [R D]]]].
    - left. split; [exact E|apply SH; exact R].
    - right. exists (S k). split; [lia|]. split; [apply SH; exact R|]. replace (nr + S k)%nat with (S nr + k)%nat by lia.
      destruct D as [[E [A B]]|[E [A B]]]; [left|right]; rewrite E.
      + split; [|split; [exact A|intros Ht; rewrite <- NTK by exact Ht; apply B; exact Ht]].
        unfold nt'. destruct (Z.eqb_spec t 0) as [Et|Et]; [reflexivity|]. replace (nt + S k + 1)%nat with (S nt + k + 1)%nat by lia. reflexivity.
      + rewrite NTK by exact A. split; [reflexivity|]. split; [exact A|]. rewrite <- NTK by exact A. exact B. }
  destruct (rx nr) as [b|] eqn:Eb; [|apply REST; discriminate]. destruct (Z.eqb_spec b s) as [Es|Es].
  - right. exists O. rewrite !Nat.add_0_r, !Nat.add_1_r. split; [lia|]. split; [intros k Hk; lia|]. left. split; [unfold nt'; reflexivity|]. split; [congruence|exact Hgo].
  - apply REST. congruence.
Qed.
