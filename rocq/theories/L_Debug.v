(** Lemmas about debug output. *)
From Verif Require Import Base S_BufferedOut M_BufferedOut M_SerialOut L_SerialOut M_UartArduino M_UartEsp S_Packets M_Debug S_Debug.

Lemma debug_lines lines items : Forall2 (Forall2 sprints) lines items ->
  exists s' texts, srun (concat (map debugLog lines)) serialDebug = Ok s' /\ Forall2 (clipped_all 128) items texts /\
    sent s' = flat_map pieces_of texts /\ Forall (fun t => zlen t <= 128) texts.
Proof.
  intros H. destruct (lines_ok lines items H serialDebug) as (s' & texts & E & F & S & L & _).
  { repeat split. } { change (capacity (buf serialDebug)) with 128. lia. }
  change (capacity (buf serialDebug)) with 128 in *. exists s', texts. repeat split; assumption.
Qed.
Lemma pieces_short texts : Forall (fun t => zlen t <= 128) texts -> Forall (fun b : list Z => zlen b <= 65535) (flat_map pieces_of texts).
Proof.
  induction 1 as [|t texts H _ IH]; [constructor|]. cbn [flat_map]. apply Forall_app. split; [|exact IH].
  unfold pieces_of. destruct (zlen t =? 128); repeat constructor; rewrite ?zlen_app; change (zlen [10]) with 1; lia.
Qed.
Lemma pieces_concat texts : concat (flat_map pieces_of texts) = concat (map (fun t => t ++ [10]) texts).
Proof. exact (concat_packets 128 texts). Qed.
Lemma whole (b : list Z) : zlen b <= 65535 -> rd_slice b 0 (u16 (zlen b)) = Ok b.
Proof.
  intros H. pose proof (zlen_nonneg b) as Hb. unfold u16. rewrite Z.mod_small by lia. rewrite rd_slice_ok by lia.
  unfold slice, zlen. cbn [Z.to_nat skipn]. rewrite Nat2Z.id, firstn_all. reflexivity.
Qed.

(** ** Arduino *)
Definition ard_calls (T : Z) (b : list Z) : list serialCall := [SetTimeout 100; Write b; FlushTx; SetTimeout T].
Lemma ard_flushes written T blocks : Forall (fun b => zlen b <= 65535) blocks -> forall log, timeoutAfter T log = T ->
  ardFlushes written T log blocks = Ok (log ++ flat_map (ard_calls T) blocks).
Proof.
  induction 1 as [|b blocks H _ IH]; intros log Hl; cbn [ardFlushes flat_map]; [rewrite app_nil_r; reflexivity|].
  unfold ardSend. rewrite whole by exact H. cbn [bind]. rewrite Hl. change (0 <? 100) with true. cbv iota.
  rewrite IH; [rewrite <- app_assoc; reflexivity|]. unfold timeoutAfter. rewrite fold_left_app. reflexivity.
Qed.
Lemma ard_line T blocks : on_line (flat_map (ard_calls T) blocks) = concat blocks.
Proof.
  induction blocks as [|b blocks IH]; [reflexivity|]. cbn [flat_map concat]. unfold on_line in *. rewrite flat_map_app, IH. cbn. rewrite app_nil_r. reflexivity.
Qed.
Lemma ard_timeout T blocks : timeoutAfter T (flat_map (ard_calls T) blocks) = T.
Proof. induction blocks as [|b blocks IH]; [reflexivity|]. cbn [flat_map]. unfold timeoutAfter in *. rewrite fold_left_app. cbn [fold_left ard_calls]. exact IH. Qed.
Lemma flat_flat {A B C} (f : B -> list C) (g : A -> list B) l : flat_map f (flat_map g l) = flat_map (fun x => flat_map f (g x)) l.
Proof. induction l as [|x l IH]; [reflexivity|]. cbn [flat_map]. rewrite flat_map_app, IH. reflexivity. Qed.
Lemma ard_lines_out written T texts log : Forall (fun t => zlen t <= 128) texts -> log = [] ->
  let calls := flat_map (fun t => flat_map (ard_calls T) (pieces_of t)) texts in
  ardFlushes written T log (flat_map pieces_of texts) = Ok calls /\ on_line calls = concat (map (fun t => t ++ [10]) texts) /\ timeoutAfter T calls = T.
Proof.
  intros H -> calls. subst calls. rewrite <- flat_flat. rewrite ard_flushes by (try reflexivity; apply pieces_short; exact H).
  split; [reflexivity|]. rewrite ard_line, ard_timeout. split; [apply pieces_concat|reflexivity].
Qed.

(** ** ESP32 *)
Fixpoint esp_calls (driver : list uartCall -> list Z -> Z) (log : list uartCall) (blocks : list (list Z)) : list uartCall :=
  match blocks with
  | [] => []
  | b :: blocks => let step := WriteBytes b (driver log b) :: (if 0 <? driver log b then [WaitDone] else []) in step ++ esp_calls driver (log ++ step) blocks
  end.
Lemma esp_flushes driver blocks : Forall (fun b => zlen b <= 65535) blocks -> forall log, espFlushes driver log blocks = Ok (log ++ esp_calls driver log blocks).
Proof.
  induction 1 as [|b blocks H _ IH]; intros log; cbn [espFlushes esp_calls]; [rewrite app_nil_r; reflexivity|].
  rewrite whole by exact H. cbn [bind]. unfold sendBlocking. rewrite IH. cbv zeta. cbn [app]. rewrite <- app_assoc. reflexivity.
Qed.
Lemma esp_calls_writes driver blocks : forall log,
  flat_map (fun c => match c with WriteBytes bs _ => [bs] | WaitDone => [] end) (esp_calls driver log blocks) = blocks.
Proof. induction blocks as [|b blocks IH]; intros log; [reflexivity|]. cbn [esp_calls]. cbv zeta. rewrite flat_map_app, IH. destruct (0 <? driver log b); reflexivity. Qed.
Lemma esp_calls_head driver blocks log rest : esp_calls driver log blocks <> WaitDone :: rest.
Proof. destruct blocks; cbn [esp_calls app]; discriminate. Qed.
Lemma esp_calls_split' driver blocks : forall log before bs r after, esp_calls driver log blocks = before ++ WriteBytes bs r :: after ->
  r = driver (log ++ before) bs /\ (0 < r -> exists rest, after = WaitDone :: rest) /\ (r <= 0 -> forall rest, after <> WaitDone :: rest).
Proof.
  induction blocks as [|b blocks IH]; intros log before bs r after H; cbn [esp_calls] in H; [destruct before; discriminate H|]. cbv zeta in H.
  set (step := WriteBytes b (driver log b) :: (if 0 <? driver log b then [WaitDone] else [])) in *.
  destruct before as [|c before].
  - subst step. cbn [app] in H. injection H as -> <- <-. rewrite app_nil_r. split; [reflexivity|]. destruct (Z.ltb_spec 0 (driver log bs)) as [P|P].
    + split; [intros _; eexists; reflexivity|lia].
    + split; [lia|]. intros _ rest. apply esp_calls_head.
  - assert (Hb : exists b2, c :: before = step ++ b2).
    { subst step. destruct (0 <? driver log b); cbn [app] in H; injection H as <- H.
      - destruct before as [|c2 before]; [discriminate H|]. cbn [app] in H. injection H as <- H. exists before. reflexivity.
      - exists before. reflexivity. }
    destruct Hb as [b2 Hb]. rewrite Hb, <- app_assoc in H. apply app_inv_head in H. apply IH in H. rewrite Hb, app_assoc. exact H.
Qed.
Lemma esp_calls_split driver blocks : forall before bs r after, esp_calls driver [] blocks = before ++ WriteBytes bs r :: after ->
  r = driver before bs /\ (0 < r -> exists rest, after = WaitDone :: rest) /\ (r <= 0 -> forall rest, after <> WaitDone :: rest).
Proof. intros before bs r after H. exact (esp_calls_split' driver blocks [] before bs r after H). Qed.
Lemma esp_calls_all driver blocks : (forall log bs, driver log bs = zlen bs) -> forall log, bytes_out (esp_calls driver log blocks) = concat blocks.
Proof.
  intros D. induction blocks as [|b blocks IH]; intros log; [reflexivity|]. cbn [esp_calls concat]. cbv zeta. unfold bytes_out in *. rewrite flat_map_app, IH. f_equal.
  rewrite D. unfold zlen at 1. rewrite Nat2Z.id || idtac. cbn [flat_map]. unfold zlen. rewrite Nat2Z.id, firstn_all. destruct (0 <? Z.of_nat (length b)); cbn; rewrite app_nil_r; reflexivity.
Qed.
Lemma esp_calls_none driver blocks : (forall log bs, driver log bs = -1) -> forall log, bytes_out (esp_calls driver log blocks) = [].
Proof.
  intros D. induction blocks as [|b blocks IH]; intros log; [reflexivity|]. cbn [esp_calls]. cbv zeta. unfold bytes_out in *. rewrite flat_map_app, IH, D. reflexivity.
Qed.
