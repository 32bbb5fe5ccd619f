(** Lemmas about the bytes given to iconv by the font converter. *)
From Coq Require Import String.
From Verif Require Import Base S_Font S_Packing M_BufferedOut M_Font M_Packing M_FontText M_Options L_Packing L_FontText M_Converter S_Converter S_ConverterBytes L_Converter L_ConverterOrder.
Open Scope Z_scope.
Open Scope list_scope.

Lemma turns_lift_ok {A} (T : log -> event -> Prop) (P : log -> Prop) (r : res A) (Q : A -> log -> Prop) : (forall a l, r = Ok a -> P l -> Q a l) -> turns T P (lift r) Q.
Proof. intros HQ l o l' HT HP H. unfold lift in H. apply bind_inv in H. destruct H as (a & E & H). apply Ok_inj in H. injection H as <- <-. split; [exact HT|exact (HQ a l E HP)]. Qed.
Lemma turns_now {A} (T : log -> event -> Prop) (P : log -> Prop) (m : log -> act A) Q : (forall l0, P l0 -> turns T (eq l0) (m l0) Q) -> turns T P (fun l => m l l) Q.
Proof. intros H l o l' HT HP E. exact (H l HP l o l' HT eq_refl E). Qed.

Lemma keeps_pending (r : iconvResult) (k : list Z) c : (length k <= 2)%nat ->
  keeps r (k ++ [c]) = match r with Converted _ => k | Incomplete => if zlen k =? 2 then [] else k ++ [c] | IconvError => [] end.
Proof.
  intros H. unfold keeps. destruct r; [apply removelast_last| |reflexivity]. rewrite app_length. cbn [length]. unfold zlen.
  destruct (Nat.ltb_spec (length k + 1) 3); destruct (Z.eqb_spec (Z.of_nat (length k)) 2); try reflexivity; exfalso; lia.
Qed.
Lemma pending_short e : encoder_ok e -> (length (pending e) <= 2)%nat.
Proof. intros [H1 H2]. unfold pending. rewrite firstn_length. lia. Qed.
(** one call of iconv and the converter's step *)
Lemma convert_used w to from d c e l n : encoder_ok e -> conversions w to from d l n (pending e) ->
  exists e', encoder_ok e' /\ convertBytes (fun _ => wIconv w l to from) c e =
      Ok (match wIconv w l to from (pending e ++ [c]) with Converted out => out | _ => [] end, e') /\
    conversions w to from d (l ++ [Iconv d (iconvInput c e)]) (S n) (pending e').
Proof.
  intros He HC. destruct (convertBytes_step (fun _ => wIconv w l to from) c e He) as (e' & He' & _ & E & P).
  exists e'. split; [exact He'|]. split; [exact E|]. rewrite P. change (iconvInput c e) with (pending e ++ [c]).
  rewrite <- (keeps_pending _ _ c (pending_short e He)). apply (Used _ _ _ _ _ _ (pending e)). exact HC.
Qed.

Lemma other w to from d l n k e : match e with Iconv _ _ => False | _ => True end -> conversions w to from d l n k -> conversions w to from d (l ++ [e]) n k.
Proof. intros He H. apply Other; [exact H|]. intros i ->. exact He. Qed.
Ltac others := intros; apply other; [exact I|]; tauto.

Definition ucs_state (w : world) (j : job) (d : nat) (codes : list Z) (e : encoder) (l : log) : Prop :=
  exists n, encoder_ok e /\ conversions w (txt "UCS-4LE") (jobEncoding j) d l n (pending e) /\ skipn n (font_codes 32 (jobLast j)) = codes.
Lemma ucs_other w j d codes e l x : match x with Iconv _ _ => False | _ => True end -> ucs_state w j d codes e l -> ucs_state w j d codes e (l ++ [x]).
Proof. intros Hx (n & A & B & C). exists n. split; [exact A|]. split; [apply other; assumption|exact C]. Qed.
Ltac ucs := intros; apply ucs_other; [exact I|]; tauto.
Lemma skipn_nth {A} n (l : list A) c rest : skipn n l = c :: rest -> nth_error l n = Some c /\ skipn (S n) l = rest.
Proof.
  revert l. induction n as [|n IH]; intros l H; [cbn in H; subst l; split; reflexivity|]. destruct l as [|x l]; [discriminate|]. cbn [skipn] in H. exact (IH l H).
Qed.
Lemma turns_render_u w j d codes e face u (P : log -> Prop) : (forall l, P l -> ucs_state w j d codes e l) -> (forall l b, P l -> converts w j l (FtLoadChar face u b)) ->
  turns (converts w j) P (renderGlyph w face u) (fun _ => ucs_state w j d codes e).
Proof.
  intros HP HL. unfold renderGlyph. apply (turns_bind _ _ _ _ (fun _ => ucs_state w j d codes e)).
  { apply turns_described, turns_throw; [exact HL|]. intros l H. apply ucs_other; [exact I|exact (HP l H)]. }
  intros []. apply (turns_bind _ _ _ _ (fun _ => ucs_state w j d codes e)); [apply turns_described, turns_throw; [intros; exact I|ucs]|intros []].
  apply turns_acquire; [intros; exact I|ucs].
Qed.
Lemma u8_code c a b : In c (font_codes a b) -> 0 <= a -> b < 256 -> u8 c = c.
Proof. intros H Ha Hb. apply font_codes_in in H. apply Z.mod_small. lia. Qed.
Lemma convertRaw_ucs4 w l to from c e e' : encoder_ok e ->
  convertBytes (fun _ => wIconv w l to from) c e = Ok (match wIconv w l to from (pending e ++ [c]) with Converted out => out | _ => [] end, e') ->
  convertRaw (fun _ => wIconv w l to from) c e = Ok (ucs4 (wIconv w l to from (pending e ++ [c])), e').
Proof.
  intros He E. unfold convertRaw. rewrite E. cbn [bind]. destruct (wIconv w l to from (pending e ++ [c])); reflexivity.
Qed.
Lemma turns_pass_u w j face d c codes e b : jobLast j < 256 ->
  turns (converts w j) (ucs_state w j d (c :: codes) e) (tablePass w face d (jobEncoding j) c e b) (fun r => ucs_state w j d codes (snd (fst r))).
Proof.
  intros HL. unfold tablePass.
  apply (turns_now (converts w j) (ucs_state w j d (c :: codes) e) (fun past =>
      (let* _ := call (fun _ => Iconv d (iconvInput (u8 c) e)) in
       let* ' (symbol, e) := lift (convertRaw (fun _ => wIconv w past (txt "UCS-4LE") (jobEncoding j)) (u8 c) e) in
       let* g := renderGlyph w face symbol in
       let* ' (d, s) := scoped (packed_glyph w g symbol b) (FtDoneGlyph g) in
       ret (d, e, s)))).
  intros l0 (n & He & HC & HS). destruct (skipn_nth _ _ _ _ HS) as [HN HS'].
  assert (U : u8 c = c) by (apply (u8_code c 32 (jobLast j)); [apply (nth_error_In _ _ HN)|lia|exact HL]). rewrite U.
  destruct (convert_used w (txt "UCS-4LE") (jobEncoding j) d c e l0 n He HC) as (e' & He' & E & HC').
  apply (turns_bind _ _ _ _ (fun _ => eq (l0 ++ [Iconv d (iconvInput c e)]))).
  { apply turns_call; [|intros l <-; reflexivity]. intros l <-. exists (txt "UCS-4LE"), n, (pending e), c. split; [exact HC|]. split; [reflexivity|left; split; [reflexivity|exact HN]]. }
  intros []. rewrite (convertRaw_ucs4 w l0 _ _ c e e' He E).
  apply (turns_bind _ _ _ _ (fun r l => r = (ucs4 (wIconv w l0 (txt "UCS-4LE") (jobEncoding j) (pending e ++ [c])), e') /\ l = l0 ++ [Iconv d (iconvInput c e)])).
  { apply turns_lift_ok. intros a l Ea <-. apply Ok_inj in Ea. split; [symmetry; exact Ea|reflexivity]. }
  intros [u e1]. apply (turns_bind _ _ _ _ (fun _ l => e1 = e' /\ ucs_state w j d codes e' l)).
  { intros l o l' HT [Er El] H. injection Er as -> ->. destruct (turns_render_u w j d codes e' face (ucs4 (wIconv w l0 (txt "UCS-4LE") (jobEncoding j) (pending e ++ [c]))) (eq (l0 ++ [Iconv d (iconvInput c e)]))) with (l := l) (o := o) (l' := l') as [T1 Q1]; try assumption.
    - intros l1 <-. exists (S n). split; [exact He'|]. split; [exact HC'|exact HS'].
    - intros l1 bb <-. exists l0, d, (iconvInput c e), n, (pending e). split; [reflexivity|]. split; [exact HC|reflexivity].
    - symmetry; exact El.
    - split; [exact T1|]. destruct o; [split; [reflexivity|exact Q1]|exact I]. }
  intros g. apply (turns_bind _ _ _ _ (fun _ l => e1 = e' /\ ucs_state w j d codes e' l)).
  - eapply (turns_scoped _ _ _ _ (fun _ l => e1 = e' /\ ucs_state w j d codes e' l)); [intros; exact I| |intros a l [H1 H2]; split; [exact H1|ucs]]. unfold packed_glyph.
    apply (turns_bind _ _ _ _ (fun _ l => e1 = e' /\ ucs_state w j d codes e' l)); [apply turns_throw; [intros; exact I|intros l [H1 H2]; split; [exact H1|ucs]]|intros []].
    intros l1 o1 l2 HT1 HP1 E1. refine (turns_lift _ (fun l => e1 = e' /\ ucs_state w j d codes e' l) _ (fun _ l => e1 = e' /\ ucs_state w j d codes e' l) _ _ _ _ HT1 HP1 E1). auto.
  - intros [dd s']. apply turns_ret. intros l [-> H]. exact H.
Qed.
Lemma turns_scan_u w j face d : jobLast j < 256 -> forall codes e b,
  turns (converts w j) (ucs_state w j d codes e) (tableScan w face d (jobEncoding j) codes e b) (fun t _ => length t = length codes).
Proof.
  intros HL. induction codes as [|c codes IH]; intros e b; cbn [tableScan]; [apply turns_ret; reflexivity|].
  eapply turns_bind; [apply turns_pass_u; exact HL|]. intros [[dd e'] b']. cbn [fst snd]. eapply turns_bind; [apply IH|]. intros t. apply turns_ret. intros l H. cbn [length]. congruence.
Qed.
Lemma new_encoder_ok : encoder_ok newEncoder.
Proof. split; [reflexivity|cbn; lia]. Qed.
Lemma turns_table_u w j face : codeLoop 256 firstChar (jobLast j) = Ok (font_codes 32 (jobLast j)) -> jobLast j < 256 ->
  turns (converts w j) anyway (readTable w face (jobEncoding j) firstChar (jobLast j)) (fun t _ => length t = length (font_codes 32 (jobLast j))).
Proof.
  intros E HL. unfold readTable. apply (turns_bind _ _ _ _ (fun d => ucs_state w j d (font_codes 32 (jobLast j)) newEncoder)).
  { apply turns_acquire; [intros; exact I|]. intros l _. exists O. split; [exact new_encoder_ok|]. split; [apply Opened|reflexivity]. }
  intros d. eapply (turns_scoped _ _ _ _ (fun t _ => length t = length (font_codes 32 (jobLast j)))); [intros; exact I| |auto].
  apply (turns_bind _ _ _ _ (fun codes l => codes = font_codes 32 (jobLast j) /\ ucs_state w j d codes newEncoder l)).
  { apply turns_lift_ok. intros a l Ea H. rewrite E in Ea. apply Ok_inj in Ea. subst a. split; [reflexivity|exact H]. }
  intros codes l o l' HT [-> HP] H. exact (turns_scan_u w j face d HL _ _ _ l o l' HT HP H).
Qed.

(** the header: the codes above 126 *)
Definition at_code (L : Z) (cs : list Z) (t : glyphStream) : Prop :=
  glyphLast t = L /\ encoder_ok (enc t) /\
  (cs <> [] -> cs = font_codes (currentGlyph t) L /\ 32 <= currentGlyph t <= L /\ ~ (127 <= currentGlyph t <= 159)).
Lemma putGlyph_step iconv junk g t t' L c cs : at_code L (c :: cs) t -> L < 256 -> putGlyph iconv junk g t = Ok t' ->
  currentGlyph t = c /\ u8 c = c /\ at_code L cs t' /\
  (126 < c -> exists out, convertBytes iconv c (enc t) = Ok (out, enc t')) /\ (c <= 126 -> enc t' = enc t).
Proof.
  intros (HL & He & Hc) HL2 H. destruct (Hc ltac:(discriminate)) as (Ecs & Hr & Hg). clear Hc.
  rewrite codes_step in Ecs by lia. injection Ecs as Ec Ecs. subst c. set (c := currentGlyph t) in *.
  assert (U : u8 c = c) by (apply Z.mod_small; lia). split; [reflexivity|]. split; [exact U|].
  unfold putGlyph in H. fold c in H. rewrite U, HL in H. cbv zeta in H. apply bind_inv in H. destruct H as (s1 & _ & H). apply bind_inv in H. destruct H as (s2 & _ & H).
  apply bind_inv in H. destruct H as ([s3 e] & E3 & H). apply bind_inv in H. destruct H as (s4 & _ & H). apply Ok_inj in H. subst t'.
  assert (N : cs <> [] -> cs = font_codes (if c <? L then if c =? 126 then 160 else c + 1 else c) L /\ 32 <= (if c <? L then if c =? 126 then 160 else c + 1 else c) <= L /\
              ~ (127 <= (if c <? L then if c =? 126 then 160 else c + 1 else c) <= 159)).
  { intros Hne. assert (Hlt : c < L) by (destruct (Z_lt_dec c L) as [K|K]; [exact K|exfalso; apply Hne; rewrite Ecs; apply font_codes_nil; lia]).
    replace (c <? L) with true by lia. destruct (Z.eqb_spec c 126) as [E126|E126].
    + assert (HC : cs = font_codes 160 L) by (rewrite Ecs, E126; apply (font_codes_gap 33); lia). split; [exact HC|].
      assert (160 <= L) by (destruct (Z_le_dec 160 L) as [K|K]; [exact K|exfalso; apply Hne; rewrite HC; apply font_codes_nil; lia]). lia.
    + split; [exact Ecs|]. lia. }
  unfold at_code. cbn [glyphLast enc currentGlyph]. destruct ((32 <=? c) && (c <=? 126)) eqn:B.
  - apply andb_true_iff in B. apply bind_inv in E3. destruct E3 as (s & _ & E3). apply Ok_inj in E3. injection E3 as <- <-.
    split; [split; [reflexivity|split; [exact He|exact N]]|]. split; [lia|reflexivity].
  - apply andb_false_iff in B. replace (126 <? c) with true in E3 by lia. apply bind_inv in E3. destruct E3 as ([out e1] & E & E3).
    apply bind_inv in E3. destruct E3 as (s & _ & E3). apply Ok_inj in E3. injection E3 as <- <-.
    destruct (convertBytes_step iconv c (enc t) He) as (e2 & He2 & _ & E2 & _). rewrite E in E2. apply Ok_inj in E2. injection E2 as _ ->.
    split; [split; [reflexivity|split; [exact He2|exact N]]|]. split; [intros _; exists out; exact E|lia].
Qed.
Definition utf_state (w : world) (j : job) (d : nat) (cs : list Z) (t : glyphStream) (l : log) : Prop :=
  exists n, at_code (jobLast j) cs t /\ conversions w (txt "UTF-8") (jobEncoding j) d l n (pending (enc t)) /\
    skipn n (filter high (font_codes 32 (jobLast j))) = filter high cs.
Lemma turns_glyphs_u w j junk d : jobLast j < 256 -> forall gl t cs, (length gl <= length cs)%nat ->
  turns (converts w j) (utf_state w j d cs t) (glyphScan w junk d (jobEncoding j) gl t) (fun _ => anyway).
Proof.
  intros HL. induction gl as [|g gl IH]; intros t cs Hlen; cbn [glyphScan]; [apply turns_ret; intros; exact I|].
  destruct cs as [|c cs]; [cbn [length] in Hlen; lia|].
  apply (turns_now (converts w j) (utf_state w j d (c :: cs) t) (fun past =>
      (let* _ := if 126 <? currentGlyph t then call (fun _ => Iconv d (iconvInput (u8 (currentGlyph t)) (enc t))) else ret tt in
       let* t := lift (putGlyph (fun _ => wIconv w past (txt "UTF-8") (jobEncoding j)) junk g t) in
       glyphScan w junk d (jobEncoding j) gl t))).
  intros l0 (n & HA & HC & HS). pose proof HA as (HA1 & HA2 & HA3). destruct (HA3 ltac:(discriminate)) as (Ecs & Hr & Hg).
  rewrite codes_step in Ecs by lia. injection Ecs as Ec _. rewrite <- Ec. assert (U : u8 c = c) by (apply Z.mod_small; lia). rewrite U.
  cbn [filter] in HS. unfold high at 2 in HS. 
  destruct (Z.ltb_spec 126 c) as [K|K].
  - destruct (skipn_nth _ _ _ _ HS) as [HN HS'].
    destruct (convert_used w (txt "UTF-8") (jobEncoding j) d c (enc t) l0 n HA2 HC) as (e' & He' & E & HC').
    apply (turns_bind _ _ _ _ (fun _ => eq (l0 ++ [Iconv d (iconvInput c (enc t))]))).
    { apply turns_call; [|intros l <-; reflexivity]. intros l <-. exists (txt "UTF-8"), n, (pending (enc t)), c. split; [exact HC|]. split; [reflexivity|right; split; [reflexivity|exact HN]]. }
    intros []. apply (turns_bind _ _ _ _ (fun t' => utf_state w j d cs t')).
    { apply turns_lift_ok. intros t' l Et <-. destruct (putGlyph_step _ _ _ _ _ _ _ _ HA HL Et) as (_ & _ & HA' & HE & _).
      destruct (HE K) as (out & E2). rewrite E in E2. apply Ok_inj in E2. injection E2 as _ ->. exists (S n). split; [exact HA'|]. split; [exact HC'|exact HS']. }
    intros t'. apply IH. cbn [length] in Hlen. lia.
  - apply (turns_bind _ _ _ _ (fun _ => eq l0)); [apply turns_ret; auto|]. intros [].
    apply (turns_bind _ _ _ _ (fun t' => utf_state w j d cs t')).
    { apply turns_lift_ok. intros t' l Et <-. destruct (putGlyph_step _ _ _ _ _ _ _ _ HA HL Et) as (_ & _ & HA' & _ & HE).
      exists n. split; [exact HA'|]. rewrite (HE K). split; [exact HC|exact HS]. }
    intros t'. apply IH. cbn [length] in Hlen. lia.
Qed.
Lemma turns_write_u w j f b : turns (converts w j) anyway (write w f b) (fun _ => anyway).
Proof. apply turns_call; intros; exact I. Qed.
Lemma turns_writeAll_u w j f rs : turns (converts w j) anyway (writeAll w f rs) (fun _ => anyway).
Proof. induction rs as [|r rs IH]; cbn [writeAll]; [apply turns_ret; auto|]. eapply turns_bind; [apply turns_write_u|intros []; exact IH]. Qed.
Lemma turns_binary_u w j dir t : turns (converts w j) anyway (writeBinary w dir (jobName j) t) (fun _ => anyway).
Proof.
  unfold writeBinary. apply (turns_bind _ _ _ _ (fun _ => anyway)); [apply turns_acquire; intros; exact I|].
  intros f. eapply turns_bind; [eapply (turns_scoped _ _ _ _ (fun _ => anyway) (fun _ => anyway)); [intros; exact I|apply turns_writeAll_u|intros; exact I]|intros []].
  apply (turns_bind _ _ _ _ (fun _ => anyway)); [apply turns_acquire; intros; exact I|].
  intros f2. eapply (turns_scoped _ _ _ _ (fun _ => anyway)); [intros; exact I|apply turns_writeAll_u|intros; exact I].
Qed.
Lemma turns_header_u w j junk dir t first lst height : jobLast j = (if eqbl (jobEncoding j) asciiName then 126 else 255) -> length t = length (font_codes 32 (jobLast j)) ->
  turns (converts w j) anyway (writeHeader w junk (jobName j) dir (jobEncoding j) t first lst height) (fun _ => anyway).
Proof.
  intros HJ Hlen. assert (HL : 126 <= jobLast j < 256) by (rewrite HJ; destruct (eqbl _ _); lia).
  unfold writeHeader. apply (turns_bind _ _ _ _ (fun _ => anyway)); [apply turns_acquire; intros; exact I|].
  intros f. eapply (turns_scoped _ _ _ _ (fun _ => anyway)); [intros; exact I| |intros; exact I].
  apply (turns_bind _ _ _ _ (fun _ => anyway)); [apply turns_lift; auto|intros text].
  apply (turns_bind _ _ _ _ (fun _ => anyway)); [apply turns_write_u|intros []].
  apply (turns_bind _ _ _ _ (fun d => utf_state w j d (font_codes 32 (jobLast j)) (openGlyphs (jobName j) (eqbl (jobEncoding j) asciiName) []))).
  { apply turns_acquire; [intros; exact I|]. intros l _. exists O. split; [|split; [apply Opened|reflexivity]].
    unfold openGlyphs, at_code. cbn [glyphLast enc currentGlyph]. split; [symmetry; exact HJ|]. split; [exact new_encoder_ok|]. intros _. split; [reflexivity|lia]. }
  intros d. apply (turns_bind _ _ _ _ (fun _ => anyway)).
  { eapply (turns_scoped _ _ _ _ (fun _ => anyway)); [intros; exact I| |intros; exact I].
    eapply turns_bind; [apply turns_glyphs_u; [lia|rewrite map_length, Hlen; apply le_n]|intros g]. apply (turns_bind _ _ _ _ (fun _ => anyway)); [apply turns_lift; auto|intros text2]. apply turns_write_u. }
  intros []. apply (turns_bind _ _ _ _ (fun _ => anyway)); [apply turns_lift; auto|intros text2]. apply turns_write_u.
Qed.
Lemma turns_convert_u w junk argv0 directory j : jobLast j = (if eqbl (jobEncoding j) asciiName then 126 else 255) ->
  codeLoop 256 firstChar (jobLast j) = Ok (font_codes 32 (jobLast j)) ->
  turns (converts w j) anyway (convert w junk argv0 directory j) (fun _ => anyway).
Proof.
  intros HJ HC. assert (HL : jobLast j < 256) by (rewrite HJ; destruct (eqbl _ _); lia).
  unfold convert. apply (turns_bind _ _ _ _ (fun _ => anyway)).
  { intros l o l' HT _ H. apply Ok_inj in H. injection H as <- <-. split; [apply inT_snoc; [exact HT|exact I]|]. destruct (wIsDirectory w l); exact I. }
  intros isDir. apply (turns_bind _ _ _ _ (fun _ => anyway)); [apply turns_described, turns_acquire; intros; exact I|intros lib].
  eapply (turns_scoped _ _ _ _ (fun _ => anyway)); [intros; exact I| |intros; exact I].
  apply (turns_bind _ _ _ _ (fun _ => anyway)); [apply turns_call; intros; exact I|intros []].
  apply (turns_bind _ _ _ _ (fun _ => anyway)); [apply turns_described, turns_acquire; intros; exact I|intros face].
  eapply (turns_scoped _ _ _ _ (fun _ => anyway)); [intros; exact I| |intros; exact I].
  apply (turns_bind _ _ _ _ (fun _ => anyway)); [apply turns_described, turns_throw; intros; exact I|intros []].
  eapply turns_bind; [apply turns_table_u; assumption|]. intros t l o l' HT Ht H. revert l o l' HT H Ht. intros l o l' HT H Ht.
  assert (G : turns (converts w j) anyway
    (if jobBinary j then writeBinary w (if isDir : bool then directory else parentPath argv0) (jobName j) t
     else let* _ := call (fun _ => ReadHeight face) in
          let* height := (fun l => lift (chk (Z.quot (wHeight w l) 64)) l) in
          writeHeader w junk (jobName j) (if isDir then directory else parentPath argv0) (jobEncoding j) t firstChar (jobLast j) height) (fun _ => anyway)).
  { destruct (jobBinary j); [apply turns_binary_u|].
    apply (turns_bind _ _ _ _ (fun _ => anyway)); [apply turns_call; intros; exact I|intros []].
    apply (turns_bind _ _ _ _ (fun _ => anyway)); [past_t (fun (_ : Z) => anyway); apply turns_lift; auto|intros height]. apply turns_header_u; assumption. }
  exact (G l o l' HT I H).
Qed.
