(** Lemmas about the text output of the font converter. *)
From Coq Require Import String Ascii.
From Verif Require Import Base S_BufferedOut S_Font S_Packing S_FontText M_BufferedOut M_Font M_Packing M_FontText L_Decimal L_BufferedOut L_BufferedOut3 L_Packing.
Open Scope Z_scope.
Open Scope list_scope.

(** ** Insertions that fit *)
(** the text of insertions that fit; [w] is the width in force *)
Fixpoint shown (w : Z) (os : list iop) : list Z :=
  match os with
  | [] => []
  | IStr s :: os => s ++ shown w os
  | ICStr s :: os => until_nul s ++ shown w os
  | IChar c :: os => [c] ++ shown w os
  | IInt n _ :: os => if 0 <? w then padded w 32 (decimal n) ++ shown 0 os else decimal n ++ shown w os
  | IByte b :: os => hex2 b ++ shown w os
  | IWidth w :: os => shown w os
  | _ :: os => shown w os
  end.
(** the room they need and the width afterwards *)
Fixpoint need (w : Z) (os : list iop) : Z :=
  match os with
  | [] => 0
  | IStr s :: os => zlen s + need w os
  | ICStr s :: os => zlen s + need w os
  | IChar c :: os => 1 + need w os
  | IInt n _ :: os => if 0 <? w then Z.max w (zlen (decimal n)) + need 0 os else zlen (decimal n) + need w os
  | IByte b :: os => 2 + need w os
  | IWidth w :: os => need w os
  | _ :: os => need w os
  end.
Fixpoint width_after (w : Z) (os : list iop) : Z :=
  match os with
  | [] => w
  | IInt _ _ :: os => if 0 <? w then width_after 0 os else width_after w os
  | IWidth w :: os => width_after w os
  | _ :: os => width_after w os
  end.
Definition plain (o : iop) : Prop :=
  match o with
  | ICStr s => In 0 s
  | IByte b => is_byte b
  | ISpan _ | IPrecision _ | IFill _ => False
  | _ => True
  end.
Lemma need_nonneg os : forall w, 0 <= need w os.
Proof.
  induction os as [|o os IH]; intros w; cbn [need]; [lia|]. destruct o; try apply IH.
  - pose proof (zlen_nonneg str). specialize (IH w). lia.
  - pose proof (zlen_nonneg str). specialize (IH w). lia.
  - specialize (IH w). lia.
  - pose proof (zlen_nonneg (decimal n)). destruct (0 <? w) eqn:E; [specialize (IH 0)|specialize (IH w)]; lia.
  - specialize (IH w). lia.
Qed.
Lemma until_nul_len (s : list Z) : zlen (until_nul s) <= zlen s.
Proof. induction s as [|c s IH]; cbn [until_nul]; [lia|]. destruct (c =? 0); rewrite ?zlen_cons; [pose proof (zlen_nonneg s); change (zlen (@nil Z)) with 0; lia|lia]. Qed.
Lemma shown_need os : forall w, zlen (shown w os) <= need w os.
Proof.
  induction os as [|o os IH]; intros w; cbn [shown need]; [change (zlen (@nil Z)) with 0; lia|]. destruct o; rewrite ?zlen_app; try apply IH.
  - specialize (IH w). lia.
  - specialize (IH w). pose proof (until_nul_len str). lia.
  - specialize (IH w). change (zlen [c]) with 1. lia.
  - destruct (0 <? w) eqn:E; rewrite zlen_app; [specialize (IH 0); rewrite zlen_padded by lia; lia|specialize (IH w); lia].
  - specialize (IH w). change (zlen (hex2 b)) with 2. lia.
Qed.
Lemma firstn_fit (l : list Z) n : zlen l <= n -> firstn (Z.to_nat n) l = l.
Proof. intros H. apply firstn_all2. unfold zlen in H. lia. Qed.
Lemma irun_shown os : forall s, inside s -> fillc s = 32 -> Forall plain os -> need (wid s) os <= room s ->
  exists s', irun os s = Ok s' /\ appended s (shown (wid s) os) s' /\ wid s' = width_after (wid s) os /\ fillc s' = 32.
Proof.
  induction os as [|o os IH]; intros s Hs Hf HP HN; cbn [irun shown need width_after] in *.
  { exists s. split; [reflexivity|]. split; [|auto]. pose proof Hs as Hs'. unfold inside in Hs'. unfold appended. rewrite app_nil_r. change (zlen (@nil Z)) with 0.
    repeat split; lia. }
  pose proof (Forall_inv HP) as Ho. apply Forall_inv_tail in HP.
  assert (NEXT : forall s1 t w', istep o s = Ok s1 -> appended s t s1 -> wid s1 = w' -> fillc s1 = 32 -> need w' os <= room s - zlen t ->
            exists s', (do s' <- istep o s; irun os s') = Ok s' /\ appended s (t ++ shown w' os) s' /\ wid s' = width_after w' os /\ fillc s' = 32).
  { intros s1 t w' E A W F N. rewrite E. cbn [bind]. destruct (appended_inside _ _ _ Hs A) as [I1 R1]. subst w'.
    destruct (IH s1 I1 F HP) as [s' [E' [A' [W' F']]]]; [lia|]. exists s'. split; [exact E'|]. split; [eapply appended_trans; eassumption|auto]. }
  pose proof (fun w => need_nonneg os w) as Hnn.
  destruct o; cbn [plain] in Ho; try contradiction.
  - destruct (insStr_ok str s Hs) as [s1 [E [A [_ [W F]]]]]. rewrite firstn_fit in A by (specialize (Hnn (wid s)); lia).
    apply (NEXT s1 str (wid s)); [exact E|exact A|exact W|congruence|lia].
  - destruct (insCStr_ok str s Hs (or_introl Ho)) as [s1 [E [A [_ [W F]]]]]. pose proof (until_nul_len str). rewrite firstn_fit in A by (specialize (Hnn (wid s)); lia).
    apply (NEXT s1 (until_nul str) (wid s)); [exact E|exact A|exact W|congruence|lia].
  - destruct (addChar_ok c s Hs) as [s1 [E [A [_ [W F]]]]]. replace (1 <=? room s) with true in A by (specialize (Hnn (wid s)); lia).
    apply (NEXT s1 [c] (wid s)); [exact E|exact A|exact W|congruence|change (zlen [c]) with 1; lia].
  - pose proof (zlen_nonneg (decimal n)). destruct (0 <? wid s) eqn:E0.
    + destruct (insInt_width n junk s Hs) as [s1 [E [A [_ [W F]]]]]; [specialize (Hnn 0); lia|specialize (Hnn 0); lia|]. rewrite Hf in A.
      apply (NEXT s1 (padded (wid s) 32 (decimal n)) 0); [exact E|exact A|exact W|congruence|rewrite zlen_padded by lia; lia].
    + destruct (insInt_plain n junk s Hs) as [s1 [E [A [_ [W F]]]]]; [specialize (Hnn (wid s)); lia|lia|].
      apply (NEXT s1 (decimal n) (wid s)); [exact E|exact A|exact W|congruence|lia].
  - destruct (insByte_ok b s Hs Ho) as [s1 [E [A [_ [W F]]]]]; [specialize (Hnn (wid s)); lia|].
    apply (NEXT s1 (hex2 b) (wid s)); [exact E|exact A|exact W|congruence|change (zlen (hex2 b)) with 2; lia].
  - change (shown w os) with ([] ++ shown w os).
    apply (NEXT (Bo (mem s) (pos s) (prec s) w (fillc s)) [] w); [reflexivity|apply appended_nil; exact Hs|reflexivity|exact Hf|change (zlen (@nil Z)) with 0; lia].
Qed.

(** ** Streams *)
Definition stream_ok (s : stream) : Prop := inside (sbo s) /\ capacity (sbo s) = 1024 /\ wid (sbo s) = 0 /\ fillc (sbo s) = 32.
Definition content (s : stream) : list Z := file s ++ asStringView (sbo s).
Definition used (s : stream) : Z := size (sbo s).
Lemma open_ok f : stream_ok (openStream f) /\ content (openStream f) = f /\ used (openStream f) = 0.
Proof.
  split; [|split]; [|unfold content; cbn; apply app_nil_r|reflexivity].
  unfold stream_ok, inside, capacity, openStream, create, clear, size. cbn [sbo mem pos wid fillc].
  unfold zlen. rewrite repeat_length. lia.
Qed.
Lemma ins_ok os s : stream_ok s -> Forall plain os -> width_after 0 os = 0 -> used s + need 0 os <= 1024 ->
  exists s', ins os s = Ok s' /\ stream_ok s' /\ content s' = content s ++ shown 0 os /\ used s' = used s + zlen (shown 0 os).
Proof.
  intros [H1 [H2 [H3 H4]]] HP HW HN. unfold ins, used in *.
  destruct (irun_shown os (sbo s) H1 H4 HP) as [b [E [A [W F]]]]; [rewrite H3; unfold room; lia|]. rewrite E. cbn [bind]. rewrite H3 in *.
  eexists. split; [reflexivity|]. destruct (appended_inside _ _ _ H1 A) as [I R]. destruct A as [A1 [A2 [A3 A4]]].
  split; [|split]; cbn [sbo file].
  - unfold stream_ok. cbn [sbo]. repeat split; try apply I; congruence.
  - unfold content. cbn [sbo file]. rewrite A1, app_assoc. reflexivity.
  - exact A2.
Qed.
Lemma view_len b : inside b -> zlen (asStringView b) = size b.
Proof. intros H. unfold inside, asStringView, capacity in *. rewrite zlen_slice by lia. reflexivity. Qed.
Lemma flush_ok s : stream_ok s -> stream_ok (flush s) /\ content (flush s) = content s /\ used (flush s) = 0 /\ file (flush s) = content s.
Proof.
  intros [H1 [H2 [H3 H4]]]. unfold flush. pose proof (view_len _ H1) as HV. rewrite HV.
  pose proof H1 as H1'. unfold inside in H1'.
  destruct (0 <? size (sbo s)) eqn:E.
  - split; [|split; [|split; reflexivity]].
    + unfold stream_ok, inside, clear, size, capacity in *. cbn [sbo mem pos wid fillc] in *. repeat split; lia.
    + unfold content. cbn [sbo file]. unfold clear, asStringView at 2, size. cbn [mem pos]. unfold slice. cbn [Z.to_nat firstn]. apply app_nil_r.
  - assert (E0 : size (sbo s) = 0) by lia. rewrite E0 in HV.
    assert (EV : asStringView (sbo s) = []) by (destruct (asStringView (sbo s)) as [|z l]; [reflexivity|rewrite zlen_cons in HV; pose proof (zlen_nonneg l); lia]).
    split; [repeat split; try apply H1; assumption|]. split; [reflexivity|]. split; [exact E0|]. unfold content. rewrite EV, app_nil_r. reflexivity.
Qed.

(** ** The bitmap array *)
Definition hex_ok (h : hexStream) (k : Z) : Prop :=
  stream_ok (hs h) /\ 0 <= k /\ totalBytesWritten h = k /\
  bytesWritten h = (if k =? 0 then 0 else (k - 1) mod 12 + 1) /\ used (hs h) = 6 * bytesWritten h.
Ltac plains := repeat (apply Forall_cons; [cbn [plain]; first [exact I|assumption|cbn; tauto]|]); apply Forall_nil.
(** one [ins] whose text is known *)
Lemma ins_text os t s : stream_ok s -> Forall plain os -> width_after 0 os = 0 -> shown 0 os = t -> used s + need 0 os <= 1024 ->
  exists s', ins os s = Ok s' /\ stream_ok s' /\ content s' = content s ++ t /\ used s' = used s + zlen t.
Proof. intros H1 H2 H3 <- H4. apply ins_ok; assumption. Qed.
Lemma putHex_ok b h k : hex_ok h k -> is_byte b -> k < 2147483647 ->
  exists h', putHex b h = Ok h' /\ hex_ok h' (k + 1) /\ content (hs h') = content (hs h) ++ before_byte k ++ txt "0x" ++ hex2 b.
Proof.
  intros [H1 [H2 [H3 [H4 H5]]]] Hb Hk. unfold putHex.
  assert (FIRST : exists s w, 
     (if negb (bytesWritten h =? 0) then
       do s <- ins [IChar 44] (hs h);
       if bytesInLine =? bytesWritten h then do s <- ins [IChar nl] s; Ok (flush s, 0)
       else do s <- ins [IChar 32] s; Ok (s, bytesWritten h)
     else Ok (hs h, bytesWritten h)) = Ok (s, w) /\ stream_ok s /\ 
     w = k mod 12 /\ used s = (if w =? 0 then 0 else 6 * w + 2) /\
     content s = content (hs h) ++ (if k =? 0 then [] else if k mod 12 =? 0 then [44; 10] else [44; 32])).
  { rewrite H4. destruct (Z.eqb_spec k 0) as [->|Hk0].
    { cbn [Z.eqb negb]. exists (hs h), 0. rewrite app_nil_r. repeat split; try apply H1. rewrite H5, H4. reflexivity. }
    replace ((k - 1) mod 12 + 1 =? 0) with false by (Z.div_mod_to_equations; lia). cbn [negb].
    rewrite H4 in H5. replace (k =? 0) with false in H5 by lia.
    destruct (ins_text [IChar 44] [44] (hs h) H1) as [s1 [E1 [O1 [C1 U1]]]]; [plains|reflexivity|reflexivity|cbn [need]; Z.div_mod_to_equations; lia|].
    rewrite E1. cbn [bind]. unfold bytesInLine. change (zlen [44]) with 1 in U1.
    destruct (Z.eqb_spec 12 ((k - 1) mod 12 + 1)) as [HE|HE].
    - destruct (ins_text [IChar nl] [10] s1 O1) as [s2 [E2 [O2 [C2 U2]]]]; [plains|reflexivity|reflexivity|cbn [need]; lia|].
      rewrite E2. cbn [bind]. destruct (flush_ok s2 O2) as [O3 [C3 [U3 _]]].
      exists (flush s2), 0. assert (HM : k mod 12 = 0) by (Z.div_mod_to_equations; lia). rewrite HM. split; [reflexivity|]. split; [exact O3|]. split; [reflexivity|].
      split; [exact U3|]. rewrite C3, C2, C1, <- app_assoc. reflexivity.
    - destruct (ins_text [IChar 32] [32] s1 O1) as [s2 [E2 [O2 [C2 U2]]]]; [plains|reflexivity|reflexivity|cbn [need]; Z.div_mod_to_equations; lia|].
      rewrite E2. cbn [bind]. exists s2, ((k - 1) mod 12 + 1). split; [reflexivity|]. split; [exact O2|]. split; [Z.div_mod_to_equations; lia|].
      change (zlen [32]) with 1 in U2. split; [replace ((k - 1) mod 12 + 1 =? 0) with false by (Z.div_mod_to_equations; lia); lia|].
      replace (k mod 12 =? 0) with false by (Z.div_mod_to_equations; lia). rewrite C2, C1, <- app_assoc. reflexivity. }
  destruct FIRST as [s [w [E [O [Hw [U C]]]]]]. rewrite E. cbn [bind]. clear E.
  assert (HW : 0 <= w < 12) by (subst w; apply Z.mod_pos_bound; lia).
  assert (SECOND : exists s2, (if w =? 0 then ins (repeat (IChar 32) indent) s else Ok s) = Ok s2 /\ stream_ok s2 /\ used s2 = 6 * w + 2 /\
            content s2 = content s ++ (if w =? 0 then [32; 32] else [])).
  { destruct (w =? 0) eqn:E0.
    - destruct (ins_text (repeat (IChar 32) indent) [32; 32] s O) as [s2 [E2 [O2 [C2 U2]]]]; [cbn [repeat indent]; plains|reflexivity|reflexivity|cbn [need repeat indent]; lia|].
      exists s2. split; [exact E2|]. split; [exact O2|]. change (zlen [32; 32]) with 2 in U2. split; [lia|exact C2].
    - exists s. rewrite app_nil_r. auto. }
  destruct SECOND as [s2 [E2 [O2 [U2 C2]]]]. rewrite E2. cbn [bind].
  destruct (ins_text [lit "0x"; IByte b] (txt "0x" ++ hex2 b) s2 O2) as [s3 [E3 [O3 [C3 U3]]]]; [plains|reflexivity|reflexivity|cbn; lia|].
  rewrite E3. cbn [bind]. rewrite H3. rewrite !chk_ok by (unfold INT_MIN, INT_MAX; lia). cbn [bind].
  eexists. split; [reflexivity|]. cbn [hs]. split.
  - unfold hex_ok. cbn [hs totalBytesWritten bytesWritten]. split; [exact O3|]. split; [lia|]. split; [reflexivity|].
    replace (k + 1 =? 0) with false by lia. replace (k + 1 - 1) with k by lia. split; [lia|]. rewrite U3, U2. change (zlen (txt "0x" ++ hex2 b)) with 4. lia.
  - rewrite C3, C2, C, <- !app_assoc. f_equal. unfold before_byte. subst w. destruct (Z.eqb_spec k 0) as [->|Hk0]; [reflexivity|].
    destruct (k mod 12 =? 0); reflexivity.
Qed.
Lemma putHexAll_ok bs : forall h k, hex_ok h k -> bytes bs -> k + zlen bs < 2147483648 ->
  exists h', putHexAll bs h = Ok h' /\ hex_ok h' (k + zlen bs) /\ content (hs h') = content (hs h) ++ byte_literals k bs.
Proof.
  induction bs as [|b bs IH]; intros h k H HB HL; cbn [putHexAll byte_literals].
  - exists h. rewrite app_nil_r, Z.add_0_r. auto.
  - rewrite zlen_cons in HL. pose proof (zlen_nonneg bs).
    destruct (putHex_ok b h k H (Forall_inv HB)) as [h1 [E1 [O1 C1]]]; [lia|]. rewrite E1. cbn [bind].
    destruct (IH h1 (k + 1) O1 (Forall_inv_tail HB)) as [h2 [E2 [O2 C2]]]; [lia|]. exists h2. split; [exact E2|].
    rewrite zlen_cons. split; [replace (k + (1 + zlen bs)) with (k + 1 + zlen bs) by lia; exact O2|].
    rewrite C2, C1, <- !app_assoc. reflexivity.
Qed.
Lemma putHexAll_app a b h : putHexAll (a ++ b) h = do h <- putHexAll a h; putHexAll b h.
Proof. revert h. induction a as [|x a IH]; intros h; cbn [app putHexAll bind]; [reflexivity|]. destruct (putHex x h); [apply IH|reflexivity|reflexivity]. Qed.
Lemma openHex_ok name f : exists h, openHex name f = Ok h /\ hex_ok h 0 /\ content (hs h) = f ++ firstn 1024 (array_head name).
Proof.
  unfold openHex, ins. destruct (open_ok f) as [O [C U]]. pose proof O as [O1 [O2 [O3 O4]]].
  cbn [irun istep]. 
  set (s := sbo (openStream f)) in *.
  assert (I1 : exists b, insCStr (txt "const uint8_t " ++ [0]) s = Ok b /\ appended s (txt "const uint8_t ") b /\ same_format s b).
  { destruct (insCStr_ok (txt "const uint8_t " ++ [0]) s O1 ltac:(left; cbn; tauto)) as [b [E [A F]]]. exists b. auto. }
  destruct I1 as [b1 [E1 [A1 F1]]]. unfold lit. cbn [istep]. rewrite E1. cbn [bind].
  destruct (appended_inside _ _ _ O1 A1) as [J1 R1].
  destruct (insStr_ok name b1 J1) as [b2 [E2 [A2 F2]]]. rewrite E2. cbn [bind].
  destruct (appended_inside _ _ _ J1 A2) as [J2 R2].
  destruct (insCStr_ok (txt "Bitmaps[] = {" ++ [nl; 0]) b2 J2 ltac:(left; cbn; tauto)) as [b3 [E3 [A3 F3]]]. rewrite E3. cbn [bind].
  destruct (appended_inside _ _ _ J2 A3) as [J3 R3].
  change (until_nul (txt "Bitmaps[] = {" ++ [nl; 0])) with (txt "Bitmaps[] = {" ++ [10]) in *.
  pose proof (appended_trans _ _ _ _ _ A1 (appended_trans _ _ _ _ _ A2 A3)) as A.
  assert (OK : stream_ok (mkStream b3 (file (openStream f)))).
  { unfold stream_ok. cbn [sbo]. split; [exact J3|]. destruct A as [_ [_ [A _]]]. split; [congruence|]. destruct F1 as [_ [W1 X1]], F2 as [_ [W2 X2]], F3 as [_ [W3 X3]].
    split; congruence. }
  eexists. split; [reflexivity|]. destruct (flush_ok _ OK) as [K1 [K2 [K3 _]]]. split.
  - unfold hex_ok. cbn [hs totalBytesWritten bytesWritten]. split; [exact K1|]. split; [lia|]. split; [reflexivity|]. split; [reflexivity|]. rewrite K3. reflexivity.
  - cbn [hs]. rewrite K2. unfold content. cbn [sbo file]. destruct A as [A _]. rewrite A, app_assoc. fold (content (openStream f)).
    change (file (openStream f) ++ asStringView s) with (content (openStream f)). rewrite C. f_equal.
    assert (R0 : room s = 1024) by (unfold room; change (size s) with (used (openStream f)); rewrite U, O2; reflexivity).
    change (zlen (txt "const uint8_t ")) with 14 in R1. unfold array_head. rewrite (firstn_app 1024 (txt "const uint8_t ")).
    change (firstn 1024 (txt "const uint8_t ")) with (txt "const uint8_t "). f_equal. change (1024 - List.length (txt "const uint8_t "))%nat with 1010%nat.
    rewrite R1, R0. change (Z.to_nat (1024 - 14)) with 1010%nat. rewrite R1, R0 in R2. change (1024 - 14) with 1010 in R2.
    rewrite (firstn_app 1010 name). f_equal. apply (f_equal (fun n => firstn n (txt "Bitmaps[] = {" ++ [10]))). rewrite R2. unfold zlen. rewrite firstn_length. change (Z.to_nat 1010) with 1010%nat. lia.
Qed.
Lemma closeHex_ok h k : hex_ok h k -> closeHex h = Ok (content (hs h) ++ array_tail).
Proof.
  intros [H1 [H2 [H3 [H4 H5]]]]. unfold closeHex.
  destruct (ins_text [ICStr (txt " };" ++ [nl; nl; 0])] array_tail (hs h) H1) as [s [E [O [C _]]]]; [plains|reflexivity|reflexivity| |].
  { cbn [need]. change (zlen (txt " };" ++ [nl; nl; 0])) with 6. assert (bytesWritten h <= 12); [|lia].
    destruct (k =? 0); [lia|Z.div_mod_to_equations; lia]. }
  rewrite E. cbn [bind]. destruct (flush_ok s O) as [_ [_ [_ F]]]. rewrite F, C. reflexivity.
Qed.
Lemma hexval_char d : 0 <= d < 16 -> hexval (hexchar d) = d.
Proof. intros H. unfold hexval, hexchar. destruct (d <? 10) eqn:E; [replace (48 + d <? 58) with true by lia|replace (55 + d <? 58) with false by lia]; lia. Qed.
Lemma read_back bs : forall k, bytes bs -> read_literals (byte_literals k bs ++ array_tail) = bs.
Proof.
  induction bs as [|b bs IH]; intros k HB; cbn [byte_literals]; [reflexivity|].
  pose proof (Forall_inv HB) as Hb. specialize (IH (k + 1) (Forall_inv_tail HB)). unfold is_byte in Hb.
  assert (HR : read_literals ((txt "0x" ++ hex2 b ++ byte_literals (k + 1) bs) ++ array_tail) = b :: bs).
  { change (read_literals (48 :: 120 :: hexchar (b / 16) :: hexchar (b mod 16) :: (byte_literals (k + 1) bs ++ array_tail)) = b :: bs).
    change ((16 * hexval (hexchar (b / 16)) + hexval (hexchar (b mod 16))) :: read_literals (byte_literals (k + 1) bs ++ array_tail) = b :: bs).
    rewrite IH, !hexval_char by (Z.div_mod_to_equations; lia). f_equal. Z.div_mod_to_equations; lia. }
  rewrite <- app_assoc. unfold before_byte.
  assert (HH : exists x y z t, (txt "0x" ++ hex2 b ++ byte_literals (k + 1) bs) ++ array_tail = 48 :: x :: y :: z :: t) by (cbn; eauto).
  destruct HH as [x [y [z [t HH]]]]. rewrite HH in *.
  destruct (k =? 0); [|destruct (k mod 12 =? 0)]; cbn [txt app]; exact HR.
Qed.

(** ** The glyph table *)
Lemma decimal_len n k : 1 <= k -> - 10 ^ (k - 1) < n < 10 ^ k -> (n < 0 -> 2 <= k) -> zlen (decimal n) <= k.
Proof.
  intros Hk Hn Hneg. destruct (decimal_text n) as [[H0 H]|[H0 [x [E H]]]].
  - apply (numeral_len _ _ k) in H; lia.
  - rewrite E, zlen_cons. apply (numeral_len _ _ (k - 1)) in H; lia.
Qed.
Lemma aligned_ok w n : 0 < w -> zlen (decimal n) <= w -> right_aligned w n (padded w 32 (decimal n)).
Proof.
  intros Hw HL. destruct (padded_in_field w 32 (decimal n) ltac:(lia)) as [A [B _]]. destruct (B HL) as [pad [E F]].
  exists (decimal n), pad. split; [apply decimal_text|]. split; [exact E|]. split; [exact F|exact A].
Qed.
Definition gs_ok (L : Z) (cs : list Z) (t : glyphStream) : Prop :=
  stream_ok (gs t) /\ used (gs t) = 0 /\ encoder_ok (enc t) /\ pending (enc t) = [] /\ glyphLast t = L /\
  (cs <> [] -> cs = font_codes (currentGlyph t) L /\ 32 <= currentGlyph t <= L /\ ~ (127 <= currentGlyph t <= 159)).
Lemma until_txt_lit (s : string) : ~ In 0 (txt s) -> until_nul (txt s ++ [0]) = txt s.
Proof.
  induction s as [|a s IH]; [reflexivity|]. cbn [txt app until_nul]. intros H.
  destruct (Z.eqb_spec (Z.of_N (N_of_ascii a)) 0) as [E|E]; [exfalso; apply H; left; exact E|]. rewrite IH; [reflexivity|].
  intros K. apply H. right. exact K.
Qed.
Lemma codes_step a b : a <= b -> ~ (127 <= a <= 159) -> font_codes a b = a :: font_codes (a + 1) b.
Proof. intros H1 H2. rewrite font_codes_cons by exact H1. replace ((a <? 127) || (159 <? a)) with true by lia. reflexivity. Qed.
Lemma zlen_lit s : zlen (txt s ++ [0]) = Z.of_nat (String.length s) + 1.
Proof. rewrite zlen_app. change (zlen [0]) with 1. f_equal. unfold zlen. f_equal. induction s as [|a s IH]; [reflexivity|]. cbn [txt List.length String.length]. rewrite IH. reflexivity. Qed.
Lemma putGlyph_ok iconv junk g t L c cs : whole_bytes iconv -> 126 <= L <= 255 -> gs_ok L (c :: cs) t -> glyph_typed g -> 0 <= textOffset t < 2147483648 ->
  exists t' x, putGlyph iconv junk g t = Ok t' /\ gs_ok L cs t' /\ textOffset t' = textOffset t + goff g /\
    content (gs t') = content (gs t) ++ x /\ glyph_line iconv (textOffset t) c (c =? L) g x.
Proof.
  intros HI HL [H1 [H2 [H3 [H4 [H5 H6]]]]] Hg Hoff. destruct (H6 ltac:(discriminate)) as [Hcs [Hcur Hgap]]. clear H6.
  set (c0 := currentGlyph t) in *.
  assert (Hc : c = c0) by (rewrite codes_step in Hcs by lia; injection Hcs as E _; exact E).
  assert (Hcs' : cs = font_codes (c0 + 1) L) by (rewrite codes_step in Hcs by lia; injection Hcs as _ E; exact E).
  unfold glyph_typed in Hg. unfold putGlyph.
  assert (EO : (let m := u32 (textOffset t) in if m <? 2147483648 then m else m - 4294967296) = textOffset t).
  { unfold u32. cbv zeta. rewrite Z.mod_small by lia. replace (textOffset t <? 2147483648) with true by lia. reflexivity. }
  cbv zeta in EO |- *. rewrite EO.
  assert (LO : zlen (decimal (textOffset t)) <= 11) by (apply decimal_len; lia).
  assert (LW : zlen (decimal (gw g)) <= 4) by (apply decimal_len; lia).
  assert (LH : zlen (decimal (gh g)) <= 4) by (apply decimal_len; lia).
  assert (LS : zlen (decimal (gshift g)) <= 4) by (apply decimal_len; lia).
  assert (LX : zlen (decimal (gox g)) <= 4) by (apply decimal_len; lia).
  assert (LY : zlen (decimal (goy g)) <= 4) by (apply decimal_len; lia).
  match goal with |- context [ins ?os (gs t)] => set (os1 := os) end.
  match type of os1 with _ => idtac end.
  set (x1 := txt "  { " ++ padded 5 32 (decimal (textOffset t)) ++ txt ", {" ++ padded 4 32 (decimal (gw g)) ++ txt "," ++ padded 4 32 (decimal (gh g)) ++
             txt " }," ++ padded 4 32 (decimal (gshift g)) ++ txt ", { " ++ padded 4 32 (decimal (gox g)) ++ txt "," ++ padded 5 32 (decimal (goy g)) ++ txt " } }").
  assert (S1 : shown 0 os1 = x1) by (unfold os1, x1, lit; cbn [shown Z.ltb Z.compare]; rewrite !until_txt_lit by (cbn; lia); rewrite app_nil_r; reflexivity).
  assert (N1 : need 0 os1 <= 100).
  { unfold os1, lit. cbn [need Z.ltb Z.compare]. rewrite !zlen_lit. cbn [String.length]. lia. }
  destruct (ins_text os1 x1 (gs t) H1) as [s1 [E1 [O1 [C1 U1]]]]; [unfold os1; plains|reflexivity|exact S1|lia|].
  assert (B1 : zlen x1 <= 100) by (rewrite <- S1; pose proof (shown_need os1 0); lia).
  rewrite E1. cbn [bind]. clear E1 S1 N1. clear os1.
  assert (Hu8 : u8 c0 = c0) by (unfold u8; apply Z.mod_small; lia). fold c0. rewrite H5, Hu8.
  assert (Hbyte : is_byte c0) by (unfold is_byte; lia).
  (* the comment *)
  set (x2 := (if c =? L then txt " }; // 0x" else txt ",   // 0x") ++ hex2 c).
  assert (SECOND : exists s2, (if c0 <? L then ins [lit ",   // 0x"; IByte c0] s1 else ins [lit " }; // 0x"; IByte c0] s1) = Ok s2 /\
            stream_ok s2 /\ content s2 = content s1 ++ x2 /\ used s2 = used s1 + 11).
  { unfold x2. rewrite Hc. destruct (Z.ltb_spec c0 L) as [Hl|Hl].
    - replace (c0 =? L) with false by lia.
      destruct (ins_text [lit ",   // 0x"; IByte c0] (txt ",   // 0x" ++ hex2 c0) s1 O1) as [s2 [E2 [O2 [C2 U2]]]];
        [plains|reflexivity|reflexivity|unfold lit; cbn [need]; rewrite zlen_lit; cbn [String.length]; lia|].
      exists s2. auto.
    - replace (c0 =? L) with true by lia.
      destruct (ins_text [lit " }; // 0x"; IByte c0] (txt " }; // 0x" ++ hex2 c0) s1 O1) as [s2 [E2 [O2 [C2 U2]]]];
        [plains|reflexivity|reflexivity|unfold lit; cbn [need]; rewrite zlen_lit; cbn [String.length]; lia|].
      exists s2. auto. }
  destruct SECOND as [s2 [E2 [O2 [C2 U2]]]]. rewrite E2. cbn [bind]. clear E2.
  (* the label *)
  assert (THIRD : exists s3 e l,
    (if (32 <=? c0) && (c0 <=? 126) then do s <- ins [lit " '"; IChar c0; lit "'"] s2; Ok (s, enc t)
     else if 126 <? c0 then
       do ' (out, e) <- convertBytes iconv c0 (enc t);
       do s <- ins [lit " '"; IStr out; lit "'"] s2; Ok (s, e)
     else Ok (s2, enc t)) = Ok (s3, e) /\ stream_ok s3 /\ encoder_ok e /\ pending e = [] /\ label iconv c l /\
     content s3 = content s2 ++ txt " '" ++ l ++ txt "'" /\ used s3 <= 200).
  { rewrite Hc. destruct (Z_le_dec c0 126) as [H126|H126].
    - replace ((32 <=? c0) && (c0 <=? 126)) with true by lia.
      destruct (ins_text [lit " '"; IChar c0; lit "'"] (txt " '" ++ [c0] ++ txt "'") s2 O2) as [s3 [E3 [O3 [C3 U3]]]];
        [plains|reflexivity|reflexivity|unfold lit; cbn [need]; rewrite !zlen_lit; cbn [String.length]; lia|].
      rewrite E3. cbn [bind]. exists s3, (enc t), [c0]. split; [reflexivity|]. split; [exact O3|]. split; [exact H3|]. split; [exact H4|].
      split; [left; split; [lia|reflexivity]|]. split; [exact C3|]. change (zlen (txt " '" ++ [c0] ++ txt "'")) with 4 in U3. lia.
    - replace ((32 <=? c0) && (c0 <=? 126)) with false by lia. replace (126 <? c0) with true by lia.
      destruct (convertBytes_step iconv c0 (enc t) H3) as [e [He [_ [E P]]]]. rewrite H4 in E, P. cbn [app] in E, P. rewrite E. cbn [bind].
      destruct (HI (calls (enc t)) c0) as [I1 I2].
      set (out := match iconv (calls (enc t)) [c0] with Converted out => out | _ => [] end) in *.
      assert (HO : zlen out <= 4) by (unfold out; destruct (iconv (calls (enc t)) [c0]) eqn:EI; [apply I2; reflexivity|cbn; lia|cbn; lia]).
      assert (Hpe : pending e = []) by (rewrite P; destruct (iconv (calls (enc t)) [c0]); [reflexivity|congruence|reflexivity]).
      destruct (ins_text [lit " '"; IStr out; lit "'"] (txt " '" ++ out ++ txt "'") s2 O2) as [s3 [E3 [O3 [C3 U3]]]];
        [plains|reflexivity|reflexivity|unfold lit; cbn [need]; rewrite !zlen_lit; cbn [String.length]; lia|].
      rewrite E3. cbn [bind]. exists s3, e, out. split; [reflexivity|]. split; [exact O3|]. split; [exact He|]. split; [exact Hpe|].
      split; [right; split; [lia|]; exists (calls (enc t)); reflexivity|]. split; [exact C3|]. rewrite U3, !zlen_app. change (zlen (txt " '")) with 2. change (zlen (txt "'")) with 1. lia. }
  destruct THIRD as [s3 [e [l [E3 [O3 [He [Hp [Hl [C3 U3]]]]]]]]]. rewrite E3. cbn [bind]. clear E3.
  destruct (ins_text [IChar nl] [10] s3 O3) as [s4 [E4 [O4 [C4 U4]]]]; [plains|reflexivity|reflexivity|cbn [need]; lia|].
  rewrite E4. cbn [bind]. clear E4. destruct (flush_ok s4 O4) as [O5 [C5 [U5 _]]].
  eexists. exists (x1 ++ x2 ++ txt " '" ++ l ++ txt "'" ++ [10]). split; [reflexivity|]. split; [|split; [reflexivity|split]].
  - unfold gs_ok. cbn [gs enc currentGlyph glyphLast textOffset]. split; [exact O5|]. split; [exact U5|]. split; [exact He|]. split; [exact Hp|].
    split; [reflexivity|]. intros Hne.
    assert (Hlt : c0 < L) by (destruct (Z_lt_dec c0 L) as [K|K]; [exact K|exfalso; apply Hne; rewrite Hcs'; apply font_codes_nil; lia]).
    replace (c0 <? L) with true by lia. destruct (Z.eqb_spec c0 126) as [E126|E126].
    + assert (HC : cs = font_codes 160 L) by (rewrite Hcs', E126; apply (font_codes_gap 33); lia). split; [exact HC|].
      assert (160 <= L) by (destruct (Z_le_dec 160 L) as [K|K]; [exact K|exfalso; apply Hne; rewrite HC; apply font_codes_nil; lia]). lia.
    + split; [exact Hcs'|]. lia.
  - cbn [gs]. rewrite C5, C4, C3, C2, C1, <- !app_assoc. reflexivity.
  - exists (padded 5 32 (decimal (textOffset t))), (padded 4 32 (decimal (gw g))), (padded 4 32 (decimal (gh g))),
      (padded 4 32 (decimal (gshift g))), (padded 4 32 (decimal (gox g))), (padded 5 32 (decimal (goy g))), l.
    split; [exists (decimal (textOffset t)); split; [apply decimal_text|apply padded_in_field; lia]|].
    split; [apply aligned_ok; lia|]. split; [apply aligned_ok; lia|]. split; [apply aligned_ok; lia|]. split; [apply aligned_ok; lia|]. split; [apply aligned_ok; lia|].
    split; [exact Hl|]. unfold x1, x2. rewrite <- !app_assoc. reflexivity.
Qed.
Lemma putGlyphs_ok iconv junk L : whole_bytes iconv -> 126 <= L <= 255 -> forall l t cs, gs_ok L cs t -> Forall glyph_typed l -> (List.length l <= List.length cs)%nat ->
  0 <= textOffset t -> textOffset t + 65536 * zlen l < 2147483648 ->
  exists t' lines, putGlyphs iconv junk l t = Ok t' /\ stream_ok (gs t') /\ used (gs t') = 0 /\
    content (gs t') = content (gs t) ++ concat lines /\ glyph_lines iconv L (textOffset t) cs l lines.
Proof.
  intros HI HL. induction l as [|g l IH]; intros t cs H Hg Hlen H0 Hoff; cbn [putGlyphs].
  { exists t, []. destruct H as [H1 [H2 _]]. split; [reflexivity|]. split; [exact H1|]. split; [exact H2|]. cbn [concat]. rewrite app_nil_r. split; [reflexivity|exact I]. }
  destruct cs as [|c cs]; [cbn [List.length] in Hlen; lia|]. rewrite zlen_cons in Hoff. pose proof (zlen_nonneg l).
  pose proof (Forall_inv Hg) as Hg1. pose proof Hg1 as Hg1'. unfold glyph_typed in Hg1'.
  destruct (putGlyph_ok iconv junk g t L c cs HI HL H Hg1 ltac:(lia)) as [t1 [x [E1 [O1 [T1 [C1 G1]]]]]]. rewrite E1. cbn [bind].
  destruct (IH t1 cs O1 (Forall_inv_tail Hg)) as [t2 [lines [E2 [O2 [U2 [C2 G2]]]]]]; [cbn [List.length] in Hlen; lia|lia|lia|].
  exists t2, (x :: lines). split; [exact E2|]. split; [exact O2|]. split; [exact U2|]. cbn [concat glyph_lines]. rewrite C2, C1, <- app_assoc. split; [reflexivity|].
  split; [exact G1|]. rewrite <- T1. exact G2.
Qed.
Lemma openGlyphs_ok name (ascii : bool) f : gs_ok (if ascii then 126 else 255) (font_codes 32 (if ascii then 126 else 255)) (openGlyphs name ascii f) /\
  content (gs (openGlyphs name ascii f)) = f ++ table_head name.
Proof.
  unfold openGlyphs. destruct (open_ok (f ++ txt "const GFXglyph " ++ name ++ txt "Glyphs[] = {" ++ [nl])) as [O [C U]].
  split; [|cbn [gs]; rewrite C; reflexivity]. unfold gs_ok. cbn [gs enc currentGlyph glyphLast]. split; [exact O|]. split; [exact U|].
  split; [split; [reflexivity|cbn; lia]|]. split; [reflexivity|]. split; [destruct ascii; reflexivity|]. intros _. destruct ascii; (split; [reflexivity|lia]).
Qed.
Lemma closeGlyphs_ok t : stream_ok (gs t) -> used (gs t) = 0 -> closeGlyphs t = Ok (content (gs t) ++ [10]).
Proof.
  intros O U. unfold closeGlyphs.
  destruct (ins_text [ICStr [nl; 0]] [10] (gs t) O) as [s [E [O1 [C1 _]]]]; [plains|reflexivity|reflexivity|cbn [need]; change (zlen [nl; 0]) with 2; lia|].
  rewrite E. cbn [bind]. destruct (flush_ok s O1) as [O2 [C2 [_ _]]]. destruct (flush_ok _ O2) as [_ [_ [_ F]]]. rewrite F, C2, C1. reflexivity.
Qed.

(** ** The font structure *)
Lemma fontStruct_ok name first last height junk : zlen name <= 300 -> is_byte first -> is_byte last -> - 2147483648 <= height < 2147483648 ->
  exists out, fontStruct name first last height junk = Ok out /\ struct_text name first last height out.
Proof.
  intros Hn Hf Hl Hh. unfold fontStruct.
  match goal with |- context [irun ?os _] => set (os1 := os) end.
  destruct (open_ok []) as [[O1 [O2 [O3 O4]]] [C U]]. cbn [openStream sbo file] in *. unfold used in U. cbn [openStream sbo] in U.
  assert (Hu : forall b, is_byte b -> u8 b = b) by (intros b Hb; unfold u8, is_byte in *; apply Z.mod_small; lia).
  assert (LH : zlen (decimal height) <= 11) by (apply decimal_len; lia).
  assert (ZL : forall s, zlen (txt s ++ [nl; 0]) = Z.of_nat (String.length s) + 2).
  { intros s. change [nl; 0] with ([nl] ++ [0]). pose proof (zlen_lit s) as K. rewrite !zlen_app in *. change (zlen [nl]) with 1. lia. }
  destruct (irun_shown os1 (create (repeat 0 1024)) O1 O4) as [b [E [A _]]].
  { unfold os1. rewrite (Hu first Hf), (Hu last Hl). plains. }
  { rewrite O3. unfold room. rewrite O2, U. unfold os1, lit. cbn [need Z.ltb Z.compare]. rewrite !zlen_lit, !ZL. cbn [String.length]. lia. }
  rewrite E. cbn [bind]. eexists. split; [reflexivity|]. destruct A as [A _]. rewrite A. rewrite O3.
  exists (decimal height). split; [apply decimal_text|]. unfold os1, lit. rewrite (Hu first Hf), (Hu last Hl).
  cbn [shown Z.ltb Z.compare]. rewrite !until_txt_lit by (cbn; lia).
  unfold content in C. cbn [file sbo app openStream] in C. rewrite C. cbn [app]. rewrite ?app_nil_r. 
  change (until_nul (txt " = {" ++ [nl; 0])) with (txt " = {" ++ [10]). change (until_nul (txt "Bitmaps," ++ [nl; 0])) with (txt "Bitmaps," ++ [10]).
  change (until_nul (txt "Glyphs," ++ [nl; 0])) with (txt "Glyphs," ++ [10]). change (until_nul (txt " };" ++ [nl; 0])) with (txt " };" ++ [10]).
  rewrite <- !app_assoc. reflexivity.
Qed.
Lemma putHex_limit b h : hex_ok h 2147483647 -> is_byte b -> putHex b h = UB.
Proof.
  intros H Hb. destruct H as [H1 [H2 [H3 [H4 H5]]]].
  (* the same state with a smaller counter shows that everything before the counter succeeds *)
  set (h0 := mkHex (hs h) (bytesWritten h) (2147483647 - 12)).
  assert (O0 : hex_ok h0 (2147483647 - 12)).
  { unfold hex_ok, h0. cbn [hs totalBytesWritten bytesWritten]. split; [exact H1|]. split; [lia|]. split; [reflexivity|]. split; [|exact H5]. rewrite H4. reflexivity. }
  destruct (putHex_ok b h0 _ O0 Hb ltac:(lia)) as [h' [E _]]. unfold putHex in *. unfold h0 in E. cbn [hs totalBytesWritten bytesWritten] in E.
  rewrite H3.
  match type of E with bind ?A _ = _ => destruct A as [[s w]| |]; try discriminate E end. cbn [bind] in E |- *.
  match type of E with bind ?A _ = _ => destruct A as [s2| |]; try discriminate E end. cbn [bind] in E |- *.
  match type of E with bind ?A _ = _ => destruct A as [s3| |]; try discriminate E end. cbn [bind] in E |- *.
  match type of E with bind ?A _ = _ => destruct A as [w2| |]; try discriminate E end. reflexivity.
Qed.
