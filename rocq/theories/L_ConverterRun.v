(** More lemmas about runs of the font converter: what is loaded before a file is opened, runs without
    undefined behaviour, and runs in which all calls succeed. *)
From Coq Require Import String.
From Verif Require Import Base S_Font S_Packing S_FontText S_Options M_BufferedOut M_Font M_Packing M_FontText M_Options
  L_Packing L_FontText L_Options M_Converter S_Converter L_Converter.
Open Scope Z_scope.
Open Scope list_scope.

(** ** What is loaded before a file is opened *)
Lemma loaded_app a b : loaded (a ++ b) = loaded a ++ loaded b.
Proof.
  induction a as [|e a IH]; [reflexivity|]. cbn [app]. destruct e; cbn [loaded]; try exact IH. destruct ok; [|exact IH]. cbn [app]. rewrite IH. reflexivity.
Qed.
Definition quiet (e : event) : Prop := match e with FileOpen _ _ => False | _ => True end.
Definition no_load (e : event) : Prop := match e with FtLoadChar _ _ _ => False | _ => True end.
Lemma no_load_loaded l : Forall no_load l -> loaded l = [].
Proof. induction 1 as [|e l He _ IH]; [reflexivity|]. destruct e; cbn [loaded]; try exact IH. destruct He. Qed.

(** the calls of [m] satisfy [p], and [n] characters are loaded if it does not throw *)
Definition loads {A} (p : event -> Prop) (m : act A) (n : nat) : Prop :=
  forall l o l', m l = Ok (o, l') -> exists ext, l' = l ++ ext /\ Forall p ext /\
    match o with Val _ => length (loaded ext) = n | Exn => True end.
Lemma loads_ret {A} p (a : A) : loads p (ret a) 0.
Proof. intros l o l' H. apply Ok_inj in H. injection H as <- <-. exists []. rewrite app_nil_r. split; [reflexivity|]. split; [constructor|reflexivity]. Qed.
Lemma loads_lift {A} p (r : res A) : loads p (lift r) 0.
Proof. intros l o l' H. unfold lift in H. apply bind_inv in H. destruct H as (a & _ & H). exact (loads_ret p a l o l' H). Qed.
Lemma loads_bind {A B} p (m : act A) (k : A -> act B) n n2 : loads p m n -> (forall a, loads p (k a) n2) -> loads p (andThen m k) (n + n2).
Proof.
  intros Hm Hk l o l' H. unfold andThen in H. apply bind_inv in H. destruct H as ([o1 l1] & H1 & H).
  destruct (Hm l o1 l1 H1) as (e1 & -> & P1 & N1). destruct o1 as [a|].
  - destruct (Hk a _ o l' H) as (e2 & -> & P2 & N2). exists (e1 ++ e2). rewrite app_assoc. split; [reflexivity|]. split; [apply Forall_app; auto|].
    destruct o; [|exact I]. rewrite loaded_app, app_length, N1, N2. reflexivity.
  - apply Ok_inj in H. injection H as <- <-. exists e1. auto.
Qed.
Lemma loads_call (p : event -> Prop) e : (forall l, p (e l)) -> (forall l, no_load (e l)) -> loads p (call e) 0.
Proof.
  intros Hp Hn l o l' H. apply Ok_inj in H. injection H as <- <-. exists [e l]. split; [reflexivity|]. split; [constructor; [apply Hp|constructor]|].
  rewrite no_load_loaded by (constructor; [apply Hn|constructor]). reflexivity.
Qed.
Lemma loads_throw (p : event -> Prop) ok e : (forall b, p (e b)) -> (forall b, no_load (e b)) -> loads p (callOrThrow ok e) 0.
Proof.
  intros Hp Hn l o l' H. apply Ok_inj in H. injection H as <- <-. exists [e (ok l)]. split; [reflexivity|]. split; [constructor; [apply Hp|constructor]|].
  rewrite no_load_loaded by (constructor; [apply Hn|constructor]). destruct (ok l); [reflexivity|exact I].
Qed.
Lemma loads_acquire (p : event -> Prop) ok e : (forall b, p (e b)) -> (forall b, no_load (e b)) -> loads p (acquire ok e) 0.
Proof.
  intros Hp Hn l o l' H. apply Ok_inj in H. destruct (ok l); injection H as <- <-; (eexists; split; [reflexivity|]; split; [constructor; [apply Hp|constructor]|]); [|exact I].
  rewrite no_load_loaded by (constructor; [apply Hn|constructor]). reflexivity.
Qed.
Lemma loads_described {A} p w (m : act A) n : loads p m n -> loads p (described w m) n.
Proof. intros H l o l' E. exact (H l o l' (described_inv _ _ _ _ E)). Qed.
Lemma loads_scoped {A} (p : event -> Prop) (m : act A) e n : p e -> no_load e -> loads p m n -> loads p (scoped m e) n.
Proof.
  intros Hp Hn Hm l o l' H. unfold scoped in H. apply bind_inv in H. destruct H as ([o1 l1] & H1 & H). apply Ok_inj in H. injection H as <- <-.
  destruct (Hm l o1 l1 H1) as (e1 & -> & P1 & N1). exists (e1 ++ [e]). rewrite app_assoc. split; [reflexivity|].
  split; [apply Forall_app; split; [exact P1|constructor; [exact Hp|constructor]]|]. destruct o1; [|exact I].
  rewrite loaded_app, (no_load_loaded [e]) by (constructor; [exact Hn|constructor]). rewrite app_nil_r. exact N1.
Qed.
Lemma loads_use {A} p (m : act A) l o l' n : m l = Ok (o, l') -> loads p m n -> exists ext, l' = l ++ ext /\ Forall p ext /\
    match o with Val _ => length (loaded ext) = n | Exn => True end.
Proof. intros H Hr. exact (Hr l o l' H). Qed.
Ltac past_l := let l := fresh "past" in let E := fresh "E" in intros l ?o ?l' E; cbv beta in E; eapply (loads_use _ _ _ _ _ _ E); clear E.
Ltac ev := intros; exact I.
Lemma loads_render w face u : loads quiet (renderGlyph w face u) 1.
Proof.
  unfold renderGlyph. change 1%nat with (1 + (0 + 0))%nat. apply loads_bind.
  - apply loads_described. intros l o l' H. unfold callOrThrow in H. apply Ok_inj in H. injection H as <- <-. eexists. split; [reflexivity|]. split; [repeat constructor|].
    destruct (wLoadChar w l); [reflexivity|exact I].
  - intros _. apply loads_bind; [apply loads_described, loads_throw; ev|]. intros _. apply loads_acquire; ev.
Qed.
Lemma loads_pass w face d enc i e b : loads quiet (tablePass w face d enc i e b) 1.
Proof.
  unfold tablePass. past_l. change 1%nat with (0 + (0 + (1 + (0 + 0))))%nat. apply loads_bind; [apply loads_call; ev|intros _].
  apply loads_bind; [apply loads_lift|intros [u e']]. apply loads_bind; [apply loads_render|intros g].
  apply loads_bind; [|intros [dd s']; apply loads_ret]. apply loads_scoped; [exact I|exact I|]. unfold packed_glyph.
  change 0%nat with (0 + 0)%nat. apply loads_bind; [apply loads_throw; ev|intros _]. past_l. apply loads_lift.
Qed.
Lemma loads_scan w face d enc codes : forall e b, loads quiet (tableScan w face d enc codes e b) (length codes).
Proof.
  induction codes as [|i codes IH]; intros e b; cbn [tableScan length]; [apply loads_ret|].
  change (S (length codes)) with (1 + length codes)%nat. apply loads_bind; [apply loads_pass|intros [[dd e'] b']].
  rewrite <- (Nat.add_0_r (length codes)). apply loads_bind; [apply IH|intros t; apply loads_ret].
Qed.
Lemma loads_table w face enc first last codes : codeLoop 256 first last = Ok codes -> loads quiet (readTable w face enc first last) (length codes).
Proof.
  intros E. unfold readTable. change (length codes) with (0 + length codes)%nat. apply loads_bind; [apply loads_acquire; ev|intros d].
  apply loads_scoped; [exact I|exact I|]. rewrite E. past_l. apply loads_scan.
Qed.
Lemma loads_writeAll w f rs : loads no_load (writeAll w f rs) 0.
Proof.
  induction rs as [|r rs IH]; cbn [writeAll]; [apply loads_ret|]. change 0%nat with (0 + 0)%nat. apply loads_bind; [apply loads_call; ev|intros _; exact IH].
Qed.
Lemma loads_binary w dir name t : loads no_load (writeBinary w dir name t) 0.
Proof.
  unfold writeBinary. change 0%nat with (0 + (0 + (0 + 0)))%nat. apply loads_bind; [apply loads_acquire; ev|intros f].
  apply loads_bind; [apply loads_scoped; [exact I|exact I|apply loads_writeAll]|intros _].
  apply loads_bind; [apply loads_acquire; ev|intros f2]. apply loads_scoped; [exact I|exact I|apply loads_writeAll].
Qed.
Lemma loads_glyphs w junk d enc gl : forall t, loads no_load (glyphScan w junk d enc gl t) 0.
Proof.
  induction gl as [|g gl IH]; intros t; cbn [glyphScan]; [apply loads_ret|]. past_l.
  change 0%nat with (0 + (0 + 0))%nat. apply loads_bind; [destruct (126 <? currentGlyph t); [apply loads_call; ev|apply loads_ret]|intros _].
  apply loads_bind; [apply loads_lift|intros t']. apply IH.
Qed.
Lemma loads_header w junk name dir enc t first last height : loads no_load (writeHeader w junk name dir enc t first last height) 0.
Proof.
  unfold writeHeader. change 0%nat with (0 + 0)%nat. apply loads_bind; [apply loads_acquire; ev|intros f]. apply loads_scoped; [exact I|exact I|].
  change 0%nat with (0 + (0 + (0 + (0 + (0 + 0)))))%nat. apply loads_bind; [apply loads_lift|intros text]. apply loads_bind; [apply loads_call; ev|intros _].
  apply loads_bind; [apply loads_acquire; ev|intros d]. apply loads_bind.
  - apply loads_scoped; [exact I|exact I|]. change 0%nat with (0 + (0 + 0))%nat. apply loads_bind; [apply loads_glyphs|intros g].
    apply loads_bind; [apply loads_lift|intros text2]. apply loads_call; ev.
  - intros _. apply loads_bind; [apply loads_lift|intros text2]. apply loads_call; ev.
Qed.

(** files are opened only after [n] characters were loaded *)
Definition late (n : nat) (l : log) : Prop := Forall quiet l \/
  exists l1 l2, l = l1 ++ l2 /\ Forall quiet l1 /\ length (loaded l1) = n /\ Forall no_load l2.
Definition lates {A} (m : act A) (n : nat) : Prop :=
  forall l o l', m l = Ok (o, l') -> exists ext, l' = l ++ ext /\ late n ext.
Lemma lates_bind {A B} (m : act A) (k : A -> act B) n : loads quiet m 0 -> (forall a, lates (k a) n) -> lates (andThen m k) n.
Proof.
  intros Hm Hk l o l' H. unfold andThen in H. apply bind_inv in H. destruct H as ([o1 l1] & H1 & H).
  destruct (Hm l o1 l1 H1) as (e1 & -> & P1 & N1). destruct o1 as [a|].
  - destruct (Hk a _ o l' H) as (e2 & -> & L2). exists (e1 ++ e2). rewrite app_assoc. split; [reflexivity|].
    destruct L2 as [L2|(x & y & -> & Q & N & L2)]; [left; apply Forall_app; auto|]. right. exists (e1 ++ x), y. rewrite app_assoc. split; [reflexivity|].
    split; [apply Forall_app; auto|]. rewrite loaded_app, app_length, N1. auto.
  - apply Ok_inj in H. injection H as <- <-. exists e1. split; [reflexivity|left; exact P1].
Qed.
Lemma lates_scoped {A} (m : act A) e n : quiet e -> no_load e -> lates m n -> lates (scoped m e) n.
Proof.
  intros Hp Hn Hm l o l' H. unfold scoped in H. apply bind_inv in H. destruct H as ([o1 l1] & H1 & H). apply Ok_inj in H. injection H as <- <-.
  destruct (Hm l o1 l1 H1) as (e1 & -> & L). exists (e1 ++ [e]). rewrite app_assoc. split; [reflexivity|].
  destruct L as [L|(x & y & -> & Q & N & L)]; [left; apply Forall_app; auto|]. right. exists x, (y ++ [e]). rewrite app_assoc. split; [reflexivity|].
  split; [exact Q|]. split; [exact N|]. apply Forall_app. auto.
Qed.
Lemma lates_then {A B} (m : act A) (k : A -> act B) n : loads quiet m n -> (forall a, loads no_load (k a) 0) -> lates (andThen m k) n.
Proof.
  intros Hm Hk l o l' H. unfold andThen in H. apply bind_inv in H. destruct H as ([o1 l1] & H1 & H).
  destruct (Hm l o1 l1 H1) as (e1 & -> & P1 & N1). destruct o1 as [a|].
  - destruct (Hk a _ o l' H) as (e2 & -> & L2 & _). exists (e1 ++ e2). rewrite app_assoc. split; [reflexivity|]. right. exists e1, e2. auto.
  - apply Ok_inj in H. injection H as <- <-. exists e1. split; [reflexivity|left; exact P1].
Qed.
Lemma convert_late w junk argv0 directory j codes : codeLoop 256 firstChar (jobLast j) = Ok codes ->
  lates (convert w junk argv0 directory j) (length codes).
Proof.
  intros E. unfold convert. apply lates_bind.
  - intros l o l' H. apply Ok_inj in H. injection H as <- <-. eexists. split; [reflexivity|]. split; [repeat constructor|]. destruct (wIsDirectory w l); [reflexivity|exact I].
  - intros isDir. apply lates_bind; [apply loads_described, loads_acquire; ev|intros lib]. apply lates_scoped; [exact I|exact I|].
    apply lates_bind; [apply loads_call; ev|intros _]. apply lates_bind; [apply loads_described, loads_acquire; ev|intros face]. apply lates_scoped; [exact I|exact I|].
    apply lates_bind; [apply loads_described, loads_throw; ev|intros _]. apply lates_then; [apply loads_table; exact E|]. intros t.
    destruct (jobBinary j); [apply loads_binary|]. change 0%nat with (0 + (0 + 0))%nat. apply loads_bind; [apply loads_call; ev|intros _].
    apply loads_bind; [|intros height; apply loads_header]. past_l. apply loads_lift.
Qed.
Lemma late_open n l pre p h post : late n l -> l = pre ++ FileOpen p h :: post -> length (loaded pre) = n.
Proof.
  intros [L|(l1 & l2 & -> & Q & N & L)] E.
  - subst l. apply Forall_app in L. destruct L as [_ L]. destruct (Forall_inv L).
  - assert (X : exists mid, pre = l1 ++ mid).
    { clear -Q E. revert pre E. induction l1 as [|e l1 IH]; intros pre E; [exists pre; reflexivity|]. destruct pre as [|e' pre]; cbn [app] in E.
      - injection E as E _. subst e. destruct (Forall_inv Q).
      - injection E as <- E. destruct (IH (Forall_inv_tail Q) pre E) as (mid & ->). exists mid. reflexivity. }
    destruct X as (mid & ->). rewrite <- app_assoc in E. apply app_inv_head in E. subst l2. apply Forall_app in L. destruct L as [L _].
    rewrite loaded_app, (no_load_loaded mid L), app_nil_r. exact N.
Qed.

(** ** Runs without undefined behaviour *)
Definition safe {A} (m : act A) (P : A -> Prop) : Prop :=
  forall l, exists o l', m l = Ok (o, l') /\ match o with Val a => P a | Exn => True end.
Lemma safe_ret {A} (a : A) (P : A -> Prop) : P a -> safe (ret a) P.
Proof. intros H l. exists (Val a), l. auto. Qed.
Lemma safe_lift {A} (r : res A) (P : A -> Prop) : (exists a, r = Ok a /\ P a) -> safe (lift r) P.
Proof. intros (a & -> & H) l. exists (Val a), l. auto. Qed.
Lemma safe_bind {A B} (m : act A) (k : A -> act B) P Q : safe m P -> (forall a, P a -> safe (k a) Q) -> safe (andThen m k) Q.
Proof.
  intros Hm Hk l. unfold andThen. destruct (Hm l) as (o & l' & -> & H). cbn [bind]. destruct o as [a|]; [apply Hk; exact H|]. exists Exn, l'. auto.
Qed.
Lemma safe_call e : safe (call e) (fun _ => True).
Proof. intros l. exists (Val tt), (l ++ [e l]). auto. Qed.
Lemma safe_throw ok e : safe (callOrThrow ok e) (fun _ => True).
Proof. intros l. unfold callOrThrow. eexists _, _. split; [reflexivity|]. destruct (ok l); exact I. Qed.
Lemma safe_acquire ok e : safe (acquire ok e) (fun _ => True).
Proof. intros l. unfold acquire. destruct (ok l); eexists _, _; (split; [reflexivity|exact I]). Qed.
Lemma safe_described {A} w (m : act A) P : (forall l, wErrorText w l = true) -> safe m P -> safe (described w m) P.
Proof.
  intros Hw H l. destruct (H l) as (o & l' & E & HP). exists o, l'. split; [|exact HP]. unfold described. rewrite E. cbn [bind].
  destruct o; [reflexivity|]. unfold guard. rewrite Hw. reflexivity.
Qed.
Lemma safe_scoped {A} (m : act A) e P : safe m P -> safe (scoped m e) P.
Proof. intros Hm l. unfold scoped. destruct (Hm l) as (o & l' & -> & H). cbn [bind]. exists o, (l' ++ [e]). auto. Qed.

Definition entry_ok (d : glyphData) : Prop := glyph_typed (fst d) /\ bytes (snd d) /\ zlen (snd d) <= 8192.
Lemma entry_of_holds r d : rendered_ok r -> holds r d -> entry_ok d.
Proof.
  intros (R1 & R2 & _ & _ & _ & _ & R3 & R4) (D1 & D2 & D3 & D4 & D5 & D6 & D7 & D8 & _).
  assert (0 <= rwidth r * rrows r <= 255 * 255) by nia.
  split; [|split; [exact D7|rewrite D8; unfold rsize; Z.div_mod_to_equations; lia]]. unfold glyph_typed. rewrite D1, D2, D3, D4, D5, D6.
  unfold rsize, u8. Z.div_mod_to_equations. lia.
Qed.
Lemma safe_render w face u : (forall l, wErrorText w l = true) -> safe (renderGlyph w face u) (fun _ => True).
Proof.
  intros Hw. unfold renderGlyph. eapply safe_bind; [apply safe_described; [exact Hw|apply safe_throw]|intros _ _].
  eapply safe_bind; [apply safe_described; [exact Hw|apply safe_throw]|intros _ _]. apply safe_acquire.
Qed.
Lemma safe_scan w face d enc : (forall l, wErrorText w l = true) -> (forall l c, rendered_ok (wGlyph w l c)) -> forall codes e, encoder_ok e ->
  safe (tableScan w face d enc codes e newBits) (fun t => Forall entry_ok t /\ length t = length codes).
Proof.
  intros Hw Hr. induction codes as [|i codes IH]; intros e He; cbn [tableScan]; [apply safe_ret; split; [constructor|reflexivity]|].
  eapply (safe_bind _ _ (fun r => entry_ok (fst (fst r)) /\ encoder_ok (snd (fst r)) /\ snd r = newBits)).
  - unfold tablePass. intros l. eapply safe_bind; [apply safe_call|intros _ _].
    eapply (safe_bind _ _ (fun r => encoder_ok (snd r))).
    { apply safe_lift. destruct (convertBytes_step (fun _ => wIconv w l (txt "UCS-4LE") enc) (u8 i) e He) as (e' & He' & _ & E & _).
      unfold convertRaw. rewrite E. cbn [bind]. eexists. split; [reflexivity|exact He']. }
    intros [u e'] He'. eapply safe_bind; [apply safe_render; exact Hw|intros g _].
    eapply (safe_bind _ _ (fun r => entry_ok (fst r) /\ snd r = newBits)).
    { apply safe_scoped. unfold packed_glyph. eapply safe_bind; [apply safe_throw|intros _ _].
      intros l2. destruct (packGlyph_holds (wGlyph w l2 u) (Hr l2 u)) as (dd & Ed & Hd). unfold lift. rewrite Ed. cbn [bind].
      eexists _, _. split; [reflexivity|]. split; [eapply entry_of_holds; [apply Hr|exact Hd]|reflexivity]. }
    intros [dd s'] [D1 D2]. apply safe_ret. cbn [fst snd] in *. auto.
  - intros [[dd e'] b'] (D1 & D2 & D3). cbn [fst snd] in *. subst b'. eapply safe_bind; [apply IH; exact D2|intros t [T1 T2]].
    apply safe_ret. split; [constructor; assumption|cbn [length]; lia].
Qed.
Lemma safe_table w face enc first last codes : (forall l, wErrorText w l = true) -> (forall l c, rendered_ok (wGlyph w l c)) -> codeLoop 256 first last = Ok codes ->
  safe (readTable w face enc first last) (fun t => Forall entry_ok t /\ length t = length codes).
Proof.
  intros Hw Hr E. unfold readTable. eapply safe_bind; [apply safe_acquire|intros d _]. apply safe_scoped. rewrite E.
  eapply (safe_bind _ _ (fun c => c = codes)); [apply safe_lift; eexists; split; reflexivity|]. intros c ->.
  apply safe_scan; [exact Hw|exact Hr|]. split; [reflexivity|cbn; lia].
Qed.
Lemma safe_writeAll w f rs : safe (writeAll w f rs) (fun _ => True).
Proof. induction rs as [|r rs IH]; cbn [writeAll]; [apply safe_ret; exact I|]. eapply safe_bind; [apply safe_call|intros _ _; exact IH]. Qed.
Lemma safe_binary w dir name t : safe (writeBinary w dir name t) (fun _ => True).
Proof.
  unfold writeBinary. eapply safe_bind; [apply safe_acquire|intros f _]. eapply safe_bind; [apply safe_scoped; apply safe_writeAll|intros _ _].
  eapply safe_bind; [apply safe_acquire|intros f2 _]. apply safe_scoped. apply safe_writeAll.
Qed.
Lemma safe_glyphs w junk d enc L : (forall l, whole_bytes (fun _ => wIconv w l (txt "UTF-8") enc)) -> 126 <= L <= 255 -> forall gl t cs,
  gs_ok L cs t -> Forall glyph_typed gl -> (length gl <= length cs)%nat -> 0 <= textOffset t -> textOffset t + 65536 * zlen gl < 2147483648 ->
  safe (glyphScan w junk d enc gl t) (fun t => stream_ok (gs t) /\ used (gs t) = 0).
Proof.
  intros HI HL. induction gl as [|g gl IH]; intros t cs H Hg Hlen H0 Hoff; cbn [glyphScan].
  - apply safe_ret. destruct H as (H1 & H2 & _). auto.
  - destruct cs as [|c cs]; [cbn [length] in Hlen; lia|]. rewrite zlen_cons in Hoff. pose proof (zlen_nonneg gl).
    pose proof (Forall_inv Hg) as Hg1. pose proof Hg1 as Hg1'. unfold glyph_typed in Hg1'. intros l.
    destruct (putGlyph_ok (fun _ => wIconv w l (txt "UTF-8") enc) junk g t L c cs (HI l) HL H Hg1 ltac:(lia)) as (t1 & x & E1 & O1 & T1 & _ & _).
    eapply safe_bind; [destruct (126 <? currentGlyph t); [apply safe_call|apply safe_ret; exact I]|intros _ _].
    eapply (safe_bind _ _ (fun t => t = t1)); [apply safe_lift; exists t1; split; [exact E1|reflexivity]|]. intros t2 ->.
    apply (IH t1 cs O1 (Forall_inv_tail Hg)); [cbn [length] in Hlen; lia|lia|lia].
Qed.
Lemma total_bytes t : Forall entry_ok t -> zlen (concat (map snd t)) <= 8192 * zlen t.
Proof.
  induction 1 as [|d t (_ & _ & H) _ IH]; [cbn; lia|]. cbn [map concat]. rewrite zlen_app, zlen_cons. lia.
Qed.
Lemma bitmapText_ok name t : Forall entry_ok t -> zlen t <= 191 -> exists a, bitmapText name t = Ok a.
Proof.
  intros Ht HL. unfold bitmapText. destruct (openHex_ok name []) as (h & E & O & _). rewrite E. cbn [bind].
  destruct (putHexAll_ok (concat (map snd t)) h 0 O) as (h2 & E2 & O2 & _).
  { unfold bytes. apply Forall_concat. apply Forall_map. eapply Forall_impl; [|exact Ht]. intros d (_ & H & _). exact H. }
  { pose proof (total_bytes t Ht). lia. }
  rewrite E2. cbn [bind]. rewrite (closeHex_ok h2 _ O2). eexists. reflexivity.
Qed.
Lemma safe_header w junk name dir (enc : list Z) t lst height :
  let L := if eqbl enc asciiName then 126 else 255 in
  (forall l, whole_bytes (fun _ => wIconv w l (txt "UTF-8") enc)) -> Forall entry_ok t -> zlen t <= zlen (font_codes 32 L) -> zlen name <= 300 ->
  is_byte lst -> - 2147483648 <= height < 2147483648 ->
  safe (writeHeader w junk name dir enc t firstChar lst height) (fun _ => True).
Proof.
  intros L HI Ht HL Hn Hl Hh. assert (H126 : 126 <= L <= 255) by (unfold L; destruct (eqbl enc asciiName); lia).
  assert (H191 : zlen t <= 191) by (unfold L in HL; destruct (eqbl enc asciiName); [change (zlen (font_codes 32 126)) with 95 in HL|change (zlen (font_codes 32 255)) with 191 in HL]; lia).
  unfold writeHeader. eapply safe_bind; [apply safe_acquire|intros f _]. apply safe_scoped.
  eapply (safe_bind _ _ (fun _ => True)); [apply safe_lift; destruct (bitmapText_ok name t Ht H191) as (a & E); exists a; split; [exact E|exact I]|intros text _].
  eapply safe_bind; [apply safe_call|intros _ _]. eapply safe_bind; [apply safe_acquire|intros d _].
  eapply (safe_bind _ _ (fun _ => True)).
  - apply safe_scoped. destruct (openGlyphs_ok name (eqbl enc asciiName) []) as [O C]. fold L in O.
    eapply safe_bind.
    + apply (safe_glyphs w junk d enc L HI H126 (map fst t) _ _ O); [apply Forall_map; eapply Forall_impl; [|exact Ht]; intros x (H & _); exact H| |cbn; lia|].
      { rewrite map_length. unfold zlen in HL. lia. }
      { change (textOffset (openGlyphs name (eqbl enc asciiName) [])) with 0. unfold zlen in *. rewrite map_length. lia. }
    + intros g (G1 & G2). eapply (safe_bind _ _ (fun _ => True)); [apply safe_lift; eexists; split; [apply closeGlyphs_ok; assumption|exact I]|intros text2 _]. apply safe_call.
  - intros _ _. eapply (safe_bind _ _ (fun _ => True)); [apply safe_lift|intros text2 _; apply safe_call].
    destruct (fontStruct_ok name firstChar lst height junk Hn) as (out & E & _); [unfold is_byte, firstChar; lia|exact Hl|exact Hh|]. exists out. split; [exact E|exact I].
Qed.

(** the parts of a job *)
Lemma job_parts sg args j : startMain sg args = Ok (Converts j) -> exists c, parseConfig sg args = Ok (Some c) /\
  jobLast j = (if eqbl (jobEncoding j) asciiName then 126 else 255).
Proof.
  unfold startMain. intros H. apply bind_inv in H. destruct H as (r & E & H). destruct r as [c|]; [|discriminate]. exists c. split; [exact E|].
  unfold parseConfig in E. destruct (setOptions (getopts None args) config0) as [c0|]; [|discriminate]. apply bind_inv in E. destruct E as (e & _ & E).
  apply Ok_inj in E. injection E as <-. destruct (_ || _); [discriminate|]. apply bind_inv in H. destruct H as (s & _ & H). apply Ok_inj in H. injection H as <-. reflexivity.
Qed.
Lemma job_directory sg args j c items e dir : startMain sg args = Ok (Converts j) -> parseConfig sg args = Ok (Some c) ->
  command_line args items e -> last_given 111 (settings items e) [] dir -> outputDirectory c = dir.
Proof.
  intros _ E HC Hd. apply last_given_arg in Hd. unfold parseConfig in E. rewrite (getopts_line _ _ _ HC), setOptions_events in E.
  set (s := settings items e) in *. destruct (badNumber s); [discriminate|].
  assert (ES : exists c', setOptions (missing_event e) (applied s config0) = Some c' /\ outputDirectory c' = dir).
  { unfold applied, config0. cbn [fontFileName outputDirectory encodingName dpi fontSize lastCode binary printHelp orb]. rewrite Hd.
    destruct e; cbn [missing_event setOptions setOption fontFileName outputDirectory encodingName dpi fontSize lastCode binary printHelp]; eexists; split; reflexivity. }
  destruct ES as (c' & ES & Ed). rewrite ES in E. apply bind_inv in E. destruct E as (x & _ & E). apply Ok_inj in E. injection E as <-. exact Ed.
Qed.
Lemma job_codes j : (jobLast j = if eqbl (jobEncoding j) asciiName then 126 else 255) ->
  codeLoop 256 firstChar (jobLast j) = Ok (font_codes firstChar (jobLast j)).
Proof. intros ->. apply codeLoop_ok; [left; unfold firstChar; lia|]. unfold firstChar. destruct (eqbl _ _); lia. Qed.
