(** Lemmas about lines received with ReceiveUntil. *)
From Verif Require Import Base S_Uart S_Lines M_UartEsp M_UartArduino L_UartEsp L_UartArduino L_Packets.

Lemma returned mem data : firstn (Z.to_nat (zlen data)) (overwritten mem data) = data.
Proof. unfold zlen. rewrite Nat2Z.id. apply firstn_overwritten. Qed.

(** ** ESP32 *)
Lemma received_first rx n : received rx (S n) = match rx O with Some b => [b] | None => [] end ++ received (from rx 1) n.
Proof. change (S n) with (1 + n)%nat. rewrite received_from. reflexivity. Qed.
(** the request that delivers the end byte of the first line *)
Lemma first_end e text rest : ~ In e text -> forall N rx, received rx N = text ++ e :: rest ->
  exists k, (k < N)%nat /\ received rx k = text /\ rx k = Some e /\ received (from rx (S k)) (N - S k) = rest.
Proof.
  intros He N. revert text He. induction N as [|N IH]; intros text He rx H; [destruct text; discriminate|].
  rewrite received_first in H. destruct (rx O) as [b|] eqn:E0.
  - destruct text as [|x text]; cbn [app] in H; injection H as Hb H.
    + exists O. split; [lia|]. split; [reflexivity|]. split; [congruence|]. replace (S N - 1)%nat with N by lia. exact H.
    + destruct (IH text (fun K => He (or_intror K)) _ H) as (k & A & B & C & D). exists (S k). split; [lia|].
      split; [rewrite received_first, E0, B, Hb; reflexivity|]. split; [exact C|]. exact D.
  - cbn [app] in H. destruct (IH text He _ H) as (k & A & B & C & D). exists (S k). split; [lia|].
    split; [rewrite received_first, E0; exact B|]. split; [exact C|]. exact D.
Qed.
Lemma until_line ticks rx mem size e t maxTime : size < 65536 -> size <= zlen mem ->
  forall k fuel st nt nr ws got, rx (nr + k)%nat = Some e -> ~ In e (received (from rx nr) k) ->
  zlen got + zlen (received (from rx nr) k) + 1 <= size -> (k < fuel)%nat -> (t <> 0 -> forall i, (i <= k)%nat -> ticks (nt + i)%nat < maxTime) ->
  exists o, untilLoop fuel ticks rx size e t maxTime (overwritten mem got) st (zlen got) nt nr ws = Ok o /\
    omem o = overwritten mem (got ++ received (from rx nr) k ++ [e]) /\ ocount o = zlen (got ++ received (from rx nr) k ++ [e]) /\ reads o = (nr + S k)%nat.
Proof.
  intros Hs Hm. induction k as [|k IH]; intros [|fuel] st nt nr ws got Hr He Hl Hf Ht; try lia; cbn [untilLoop];
    pose proof (zlen_nonneg got) as G0.
  - change (received (from rx nr) 0) with (@nil Z) in *. change (zlen (@nil Z)) with 0 in Hl. replace (zlen got <? size) with true by lia.
    rewrite Nat.add_0_r in Hr. rewrite Hr. cbn [app].
    assert (GO : exists st' nt', (if t =? 0 then (true, st, nt) else (ticks nt <? maxTime, ticks nt, S nt)) = (true, st', nt')).
    { destruct (Z.eqb_spec t 0) as [E|E]; [eauto|]. specialize (Ht E O ltac:(lia)). rewrite Nat.add_0_r in Ht. replace (ticks nt <? maxTime) with true by lia. eauto. }
    destruct GO as (st' & nt' & ->). rewrite overwrite_next by lia. cbn [bind]. rewrite read_next. cbn [bind]. rewrite Z.eqb_refl.
    eexists. split; [reflexivity|]. cbn [omem ocount reads]. split; [reflexivity|]. split; [|lia]. unfold u16. rewrite Z.mod_small by lia. rewrite zlen_app. reflexivity.
  - rewrite received_first in He, Hl. rewrite received_first. change (from (from rx nr) 1) with (fun i => from rx nr (1 + i)%nat) in *.
    change (from rx nr 0) with (rx (nr + 0)%nat) in *. rewrite Nat.add_0_r in *.
    assert (EF : forall n, received (fun i => from rx nr (1 + i)%nat) n = received (from rx (S nr)) n).
    { intros n. induction n as [|n IHn]; [reflexivity|]. cbn [received]. rewrite IHn. unfold from. replace (nr + (1 + n))%nat with (S nr + n)%nat by lia. reflexivity. }
    rewrite EF in *.
    assert (GO : exists st' nt', (if t =? 0 then (true, st, nt) else (ticks nt <? maxTime, ticks nt, S nt)) = (true, st', nt') /\ (t <> 0 -> nt' = S nt)).
    { destruct (Z.eqb_spec t 0) as [E|E]; [eexists _, _; split; [reflexivity|intros K; contradiction]|].
      pose proof (Ht E O ltac:(lia)) as H0. rewrite Nat.add_0_r in H0. replace (ticks nt <? maxTime) with true by lia. eexists _, _. split; [reflexivity|reflexivity]. }
    destruct GO as (st' & nt' & -> & Hnt).
    assert (Ht' : t <> 0 -> forall i, (i <= k)%nat -> ticks (nt' + i)%nat < maxTime).
    { intros E i Hi. rewrite (Hnt E). replace (S nt + i)%nat with (nt + S i)%nat by lia. apply Ht; [exact E|lia]. }
    assert (Hr' : rx (S nr + k)%nat = Some e) by (replace (S nr + k)%nat with (nr + S k)%nat by lia; exact Hr).
    pose proof (zlen_nonneg (received (from rx (S nr)) k)) as G2.
    destruct (rx nr) as [b|] eqn:Eb.
    + rewrite zlen_app in Hl. change (zlen [b]) with 1 in Hl. replace (zlen got <? size) with true by lia. rewrite overwrite_next by lia. cbn [bind]. rewrite read_next. cbn [bind].
      assert (Nb : b <> e) by (intros E; apply He; left; exact E). replace (b =? e) with false by lia.
      replace (u16 (zlen got + 1)) with (zlen (got ++ [b])) by (unfold u16; rewrite Z.mod_small by lia; rewrite zlen_app; reflexivity).
      destruct (IH fuel st' nt' (S nr) (ws ++ [u32 (maxTime - st')]) (got ++ [b]) Hr') as (o & A & B & C & D);
        [intros K; apply He; right; exact K|rewrite zlen_app; change (zlen [b]) with 1; lia|lia|exact Ht'|].
      exists o. split; [exact A|]. rewrite <- app_assoc in B, C. split; [exact B|]. split; [exact C|]. lia.
    + cbn [app] in *. replace (zlen got <? size) with true by lia.
      destruct (IH fuel st' nt' (S nr) (ws ++ [u32 (maxTime - st')]) got Hr' He ltac:(lia) ltac:(lia) Ht') as (o & A & B & C & D).
      exists o. split; [exact A|]. split; [exact B|]. split; [exact C|]. lia.
Qed.

(** ** Arduino *)
Lemma answers_of timed (T : Z) e got : delivers timed T e got -> map (fun i => timed i T) (seq 0 (length got)) = map Some got.
Proof.
  intros [D _]. induction got as [|b got IH] using rev_ind; [reflexivity|].
  rewrite app_length, seq_app, !map_app. cbn [length seq map Nat.add]. rewrite IH.
  - f_equal. f_equal. apply D. rewrite nth_error_app2 by lia. rewrite Nat.sub_diag. reflexivity.
  - intros i c Hi. apply D. rewrite nth_error_app1; [exact Hi|]. apply nth_error_Some. congruence.
Qed.
Lemma until_takes fuel timed old mem size e t o : 1 <= size < 65536 -> size <= zlen mem ->
  ardReceiveUntil fuel timed old mem size e t = Ok o ->
  let T := if 0 <? t then t else old in
  exists got, amem o = overwritten mem (got ++ [e]) /\ acount o = zlen (got ++ [e]) /\
    takes size e got (map (fun i => timed i T) (seq 0 (aTimed o))).
Proof.
  intros Hs Hm EO T. unfold ardReceiveUntil in EO. fold T in EO.
  assert (EL : u32 (size - 1) = size - 1) by (unfold u32; apply Z.mod_small; lia). rewrite EL in EO.
  assert (D0 : delivers timed T e []) by (split; [intros [|i] b H; discriminate|intros []]).
  destruct (read_until timed T e (size - 1) mem [] ltac:(cbn; lia) fuel [] D0 ltac:(cbn; lia)) as [[E _]|[got [n [E [D [L [_ R]]]]]]];
    cbn [app length] in E; change (overwritten mem []) with mem in E; change (zlen (@nil Z)) with 0 in E; rewrite E in EO; [discriminate|].
  cbn [app bind] in *. pose proof (zlen_nonneg got) as Hn. assert (E16 : u16 (0 + zlen got) = zlen got) by (unfold u16; apply Z.mod_small; lia). rewrite E16 in EO.
  rewrite overwrite_next in EO by lia. cbn [bind] in EO. apply Ok_inj in EO. subst o. cbn [amem acount aTimed]. exists got. split; [reflexivity|].
  split; [rewrite zlen_app; change (zlen [e]) with 1; unfold u16; rewrite Z.mod_small by lia; reflexivity|]. split; [exact (proj2 D)|].
  destruct R as [[R1 ->]|[R1 [-> R2]]]; [left; split; [lia|apply (answers_of _ _ _ _ D)]|right; split; [lia|]].
  rewrite <- Nat.add_1_r, seq_app, map_app, (answers_of _ _ _ _ D). cbn [seq map Nat.add].
  destruct R2 as [R2|R2]; rewrite R2; [right|left]; reflexivity.
Qed.
Lemma until_text fuel timed old mem size e t text : 1 <= size < 65536 -> size <= zlen mem ->
  let T := if 0 <? t then t else old in
  ~ In e text -> zlen text + 1 <= size -> (length text < fuel)%nat ->
  (forall i b, nth_error (text ++ [e]) i = Some b -> timed i T = Some b) ->
  exists o, ardReceiveUntil fuel timed old mem size e t = Ok o /\ amem o = overwritten mem (text ++ [e]) /\ acount o = zlen (text ++ [e]) /\
    aTimed o = (length text + if (zlen text + 1 =? size)%Z then 0 else 1)%nat.
Proof.
  intros Hs Hm T He Hl Hf Hb. unfold ardReceiveUntil. fold T.
  assert (EL : u32 (size - 1) = size - 1) by (unfold u32; apply Z.mod_small; lia). rewrite EL.
  assert (GEN : forall rest got fuel, text = got ++ rest -> (length rest < fuel)%nat ->
    readBytesUntil fuel timed T e (size - 1) (overwritten mem got) 0 (zlen got) (length got)
      = Ok (overwritten mem text, zlen text, (length text + if (zlen text + 1 =? size)%Z then 0 else 1)%nat)).
  { clear fuel Hf. induction rest as [|b rest IH]; intros got [|fuel] Et Hf; cbn [length] in Hf; try lia; cbn [readBytesUntil].
    - rewrite app_nil_r in Et. subst got. destruct (Z.eqb_spec (zlen text + 1) size) as [E|E].
      + replace (zlen text <? size - 1) with false by lia. rewrite Nat.add_0_r. reflexivity.
      + replace (zlen text <? size - 1) with true by lia. rewrite (Hb (length text) e).
        2: { rewrite nth_error_app2 by lia. rewrite Nat.sub_diag. reflexivity. }
        rewrite Z.eqb_refl, Nat.add_1_r. reflexivity.
    - assert (LZ : zlen text = zlen got + 1 + zlen rest) by (rewrite Et, zlen_app, zlen_cons; lia). pose proof (zlen_nonneg rest).
      replace (zlen got <? size - 1) with true by lia. rewrite (Hb (length got) b).
      2: { rewrite Et, <- app_assoc, nth_error_app2 by lia. rewrite Nat.sub_diag. reflexivity. }
      assert (Nb : b <> e) by (intros E; apply He; rewrite Et; apply in_or_app; right; left; exact E). replace (b =? e) with false by lia.
      rewrite Z.add_0_l, overwrite_next by lia. cbn [bind].
      replace (zlen got + 1) with (zlen (got ++ [b])) by (rewrite zlen_app; reflexivity).
      replace (S (length got)) with (length (got ++ [b])) by (rewrite app_length; cbn [length]; lia).
      apply IH; [rewrite <- app_assoc; exact Et|lia]. }
  pose proof (GEN text [] fuel eq_refl Hf) as E. change (overwritten mem []) with mem in E. change (zlen (@nil Z)) with 0 in E. cbn [length] in E. rewrite E. cbn [bind].
  pose proof (zlen_nonneg text) as Hn. assert (E16 : u16 (0 + zlen text) = zlen text) by (unfold u16; apply Z.mod_small; lia). rewrite E16.
  rewrite overwrite_next by lia. cbn [bind]. eexists. split; [reflexivity|]. cbn [amem acount aTimed]. split; [reflexivity|]. split; [|reflexivity].
  rewrite zlen_app. change (zlen [e]) with 1. unfold u16. rewrite Z.mod_small by lia. reflexivity.
Qed.
