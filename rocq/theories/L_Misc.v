(** Lemmas for pins, I2C, analog pins, delays and sleeps. *)
From Verif Require Import Base S_Misc M_Gpio M_I2C M_Analog M_Delays L_Spi.

(** ** Pins *)
Lemma last_level_app p a b : last_level p (a ++ b) = match last_level p b with Some l => Some l | None => last_level p a end.
Proof.
  induction a as [|[q l] a IH]; cbn [app last_level]; [destruct (last_level p b); reflexivity|]. rewrite IH. destruct (last_level p b); reflexivity.
Qed.
Lemma last_level_none p log : last_level p log = None <-> (forall l, ~ In (p, l) log).
Proof.
  induction log as [|[q l] log IH]; cbn [last_level].
  - split; [intros _ l []|reflexivity].
  - destruct (last_level p log) as [b|] eqn:E.
    + split; [discriminate|]. intros H. exfalso. assert (K : Some b = None) by (apply IH; intros l' Hl; apply (H l'); right; exact Hl). discriminate.
    + destruct (Z.eqb_spec q p) as [->|Hq].
      * split; [discriminate|]. intros H. exfalso. apply (H l). left. reflexivity.
      * split; [|reflexivity]. intros _ l' [H|H]; [congruence|]. apply (proj1 IH eq_refl l'). exact H.
Qed.
(** what a program writes is independent of what was written before *)
Fixpoint trace (c : prog) : pinLog :=
  match c with
  | Done => []
  | SetLevel p level rest => (p, level) :: trace rest
  | Scope p body rest => ((p, false) :: trace body ++ [(p, true)]) ++ trace rest
  end.
Lemma run_trace c : forall log, runProg c log = log ++ trace c.
Proof.
  induction c as [|p level c IH|p b IHb c IH]; intros log; cbn [runProg trace].
  - rewrite app_nil_r. reflexivity.
  - rewrite IH. unfold pinSetLevel, pinSet, pinReset. destruct level; rewrite <- app_assoc; reflexivity.
  - rewrite IH, IHb. unfold selectorEnd, selectorBegin, pinSet, pinReset. cbn [app]. rewrite <- !app_assoc. reflexivity.
Qed.
Lemma trace_alone p c : leaves_alone p c -> forall l, ~ In (p, l) (trace c).
Proof.
  induction c as [|q level c IH|q b IHb c IH]; cbn [leaves_alone trace]; intros H l Hl.
  - exact Hl.
  - destruct Hl as [Hl|Hl]; [injection Hl as -> _; tauto|]. exact (IH (proj2 H) l Hl).
  - destruct H as [Hq [Hb Hc]]. apply in_app_or in Hl. destruct Hl as [[Hl|Hl]|Hl]; [injection Hl as -> _; tauto| |exact (IH Hc l Hl)].
    apply in_app_or in Hl. destruct Hl as [Hl|[Hl|[]]]; [exact (IHb Hb l Hl)|injection Hl as -> _; tauto].
Qed.

(** ** I2C *)
(** the bytes the next [k] reads give after [log] *)
Fixpoint wireBytes (w : wire) (k : nat) (log : list i2cCall) : list Z :=
  match k with O => [] | S k => u8 (readValue w (log ++ [ReadByte])) :: wireBytes w k (log ++ [ReadByte]) end.
Lemma wireBytes_len w k : forall log, zlen (wireBytes w k log) = Z.of_nat k.
Proof. induction k as [|k IH]; intros log; [reflexivity|]. cbn [wireBytes]. rewrite zlen_cons, IH. lia. Qed.
Lemma wireBytes_nth w k : forall log i, (i < k)%nat -> nth i (wireBytes w k log) 0 = u8 (readValue w (log ++ repeat ReadByte (S i))).
Proof.
  induction k as [|k IH]; intros log i Hi; [lia|]. destruct i as [|i]; [reflexivity|]. cbn [wireBytes nth]. rewrite IH by lia. rewrite <- app_assoc. reflexivity.
Qed.
Lemma ard_read_loop w k : forall mem data i log, 0 <= data + i -> data + i + Z.of_nat k <= zlen mem ->
  ardReadLoop w k mem data i log = Ok (blit mem (data + i) (wireBytes w k log), log ++ repeat ReadByte k).
Proof.
  induction k as [|k IH]; intros mem data i log H0 H1.
  - cbn [ardReadLoop wireBytes repeat]. rewrite blit_nil, app_nil_r. reflexivity.
  - cbn [ardReadLoop]. unfold wr. rewrite wr_slice_ok by (change (zlen [u8 (readValue w (log ++ [ReadByte]))]) with 1; lia). cbn [bind].
    set (r := u8 (readValue w (log ++ [ReadByte]))). rewrite IH by (try rewrite zlen_blit; change (zlen [r]) with 1; lia).
    cbn [wireBytes repeat]. fold r. rewrite <- app_assoc. replace (data + (i + 1)) with (data + i + zlen [r]) by (change (zlen [r]) with 1; lia).
    rewrite blit_blit by (change (zlen [r]) with 1; rewrite ?wireBytes_len; lia). reflexivity.
Qed.

(** ** Analog pins *)
Lemma find_channel row pin : forall j,
  match findChannel row pin j with
  | Some c => j <= c /\ nth_error row (Z.to_nat (c - j)) = Some pin /\ (forall k, (k < Z.to_nat (c - j))%nat -> nth_error row k <> Some pin)
  | None => ~ In pin row
  end.
Proof.
  induction row as [|x row IH]; intros j; cbn [findChannel]; [intros []|].
  destruct (Z.eqb_spec x pin) as [->|Hx].
  - split; [lia|]. rewrite Z.sub_diag. split; [reflexivity|]. intros k Hk. cbn in Hk. lia.
  - specialize (IH (j + 1)). destruct (findChannel row pin (j + 1)) as [c|].
    + destruct IH as [A [B C]]. split; [lia|]. replace (Z.to_nat (c - j)) with (S (Z.to_nat (c - (j + 1)))) by lia. split; [exact B|].
      intros [|k] Hk; cbn [nth_error]; [congruence|]. apply C. lia.
    + intros [H|H]; [congruence|contradiction].
Qed.
Lemma find_unit map pin : forall i,
  match findUnit map pin i with
  | Some (u, c) => i <= u /\ 0 <= c /\ nth_error (nth (Z.to_nat (u - i)) map []) (Z.to_nat c) = Some pin /\
      (forall k, (k < Z.to_nat c)%nat -> nth_error (nth (Z.to_nat (u - i)) map []) k <> Some pin) /\
      (forall r, (r < Z.to_nat (u - i))%nat -> ~ In pin (nth r map []))
  | None => forall row, In row map -> ~ In pin row
  end.
Proof.
  induction map as [|row map IH]; intros i; cbn [findUnit]; [intros row []|].
  pose proof (find_channel row pin 0) as F. destruct (findChannel row pin 0) as [c|].
  - destruct F as [A [B C]]. rewrite Z.sub_0_r in B, C. rewrite Z.sub_diag. split; [lia|]. split; [lia|]. split; [exact B|]. split; [exact C|]. intros r Hr. cbn in Hr. lia.
  - specialize (IH (i + 1)). destruct (findUnit map pin (i + 1)) as [[u c]|].
    + destruct IH as [A [B [C [D E]]]]. split; [lia|]. split; [exact B|]. replace (Z.to_nat (u - i)) with (S (Z.to_nat (u - (i + 1)))) by lia. cbn [nth].
      split; [exact C|]. split; [exact D|]. intros [|r] Hr; [exact F|]. apply E. lia.
    + intros row' [<-|H]; [exact F|apply IH; exact H].
Qed.

(** ** Delays *)
Lemma spin_spec ticks again : forall fuel nt,
  (spin fuel ticks again nt = Fuel /\ (forall i, (i < fuel)%nat -> again (u64 (ticks (nt + i)%nat)) = true)) \/
  (exists k, (k < fuel)%nat /\ spin fuel ticks again nt = Ok (nt + k + 1)%nat /\
     (forall i, (i < k)%nat -> again (u64 (ticks (nt + i)%nat)) = true) /\ again (u64 (ticks (nt + k)%nat)) = false).
Proof.
  induction fuel as [|fuel IH]; intros nt; [left; split; [reflexivity|intros; lia]|]. cbn [spin].
  destruct (again (u64 (ticks nt))) eqn:E.
  - destruct (IH (S nt)) as [[A B]|[k [K [A [B C]]]]].
    + left. split; [exact A|]. intros [|i] Hi; [rewrite Nat.add_0_r; exact E|]. rewrite <- Nat.add_succ_comm. apply B. lia.
    + right. exists (S k). split; [lia|]. split; [rewrite A; apply (f_equal (fun n => Ok n)); lia|]. split; [|rewrite <- Nat.add_succ_comm; exact C].
      intros [|i] Hi; [rewrite Nat.add_0_r; exact E|]. rewrite <- Nat.add_succ_comm. apply B. lia.
  - right. exists O. split; [lia|]. split; [apply (f_equal (fun n => Ok n)); lia|]. split; [intros; lia|]. rewrite Nat.add_0_r. exact E.
Qed.
(** the loop of light sleep *)
Lemma light_loop ticks sleeps tick wait : forall fuel nt ns log,
  (lightLoop fuel ticks sleeps tick wait nt ns log = Fuel /\ (forall k, (k < fuel)%nat -> ticks (round_start sleeps nt ns k) < wait)) \/
  (exists K, (K < fuel)%nat /\ (forall k, (k < K)%nat -> ticks (round_start sleeps nt ns k) < wait) /\ wait <= ticks (round_start sleeps nt ns K) /\
   lightLoop fuel ticks sleeps tick wait nt ns log =
     Ok (S (round_start sleeps nt ns K), log ++ concat (map (fun k => round_calls ticks sleeps tick wait (round_start sleeps nt ns k) (ns + k)) (seq 0 K)))).
Proof.
  induction fuel as [|fuel IH]; intros nt ns log; [left; split; [reflexivity|intros; lia]|]. cbn [lightLoop].
  destruct (Z.ltb_spec (ticks nt) wait) as [H|H].
  - set (log2 := log ++ round_calls ticks sleeps tick wait nt ns).
    match goal with |- context [if sleeps ns then ?a else ?b] =>
      assert (E : (if sleeps ns then a else b) = lightLoop fuel ticks sleeps tick wait (nt + (if sleeps ns then 2 else 3)) (S ns) log2) end.
    { subst log2. unfold round_calls. assert (W : u32 (u32 (wait - ticks (S nt)) * 1000) = (1000 * (wait - ticks (S nt))) mod 4294967296).
      { unfold u32. rewrite Z.mul_mod_idemp_l by lia. rewrite Z.mul_comm. reflexivity. }
      rewrite W. destruct (sleeps ns).
      - replace (nt + 2)%nat with (S (S nt)) by lia. rewrite app_nil_r. reflexivity.
      - replace (nt + 3)%nat with (S (S (S nt))) by lia. unfold delayTicksOf. destruct (ticks (S (S nt)) <? wait); rewrite <- ?app_assoc, ?app_nil_r; reflexivity. }
    rewrite E. destruct (IH (nt + (if sleeps ns then 2 else 3))%nat (S ns) log2) as [[A B]|[K [HK [B [C A]]]]].
    + left. split; [exact A|]. intros [|k] Hk; [exact H|]. apply B. lia.
    + right. exists (S K). split; [lia|]. split; [intros [|k] Hk; [exact H|apply B; lia]|]. split; [exact C|]. rewrite A. cbn [round_start].
      subst log2. rewrite <- app_assoc. cbn [seq map concat]. rewrite Nat.add_0_r. rewrite <- seq_shift, map_map.
      assert (EM : forall l, map (fun k => round_calls ticks sleeps tick wait (round_start sleeps (nt + (if sleeps ns then 2 else 3)) (S ns) k) (S ns + k)) l
        = map (fun x => round_calls ticks sleeps tick wait (round_start sleeps nt ns (S x)) (ns + S x)) l).
      { intros l. apply map_ext. intros k. rewrite <- Nat.add_succ_comm. reflexivity. }
      rewrite EM. reflexivity.
  - right. exists O. split; [lia|]. split; [intros; lia|]. split; [exact H|]. cbn [seq map concat round_start]. rewrite app_nil_r. reflexivity.
Qed.
