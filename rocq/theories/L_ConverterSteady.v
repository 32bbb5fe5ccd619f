(** Lemmas about runs of the font converter in which all calls succeed. *)
From Coq Require Import String.
From Verif Require Import Base S_Font S_Packing S_FontText S_Options M_BufferedOut M_Font M_Packing M_FontText M_Options
  L_Packing L_FontText L_Options M_Converter S_Converter L_Converter L_ConverterRun.
Open Scope Z_scope.
Open Scope list_scope.

Definition gives {A} (m : act A) (l : log) (a : A) (ext : log) : Prop := m l = Ok (Val a, l ++ ext).
Lemma gives_ret {A} (a : A) l : gives (ret a) l a [].
Proof. unfold gives, ret. rewrite app_nil_r. reflexivity. Qed.
Lemma gives_lift {A} (r : res A) a l : r = Ok a -> gives (lift r) l a [].
Proof. intros ->. apply gives_ret. Qed.
Lemma gives_bind {A B} (m : act A) (k : A -> act B) l a b e1 e2 : gives m l a e1 -> gives (k a) (l ++ e1) b e2 -> gives (andThen m k) l b (e1 ++ e2).
Proof. unfold gives, andThen. intros -> H. cbn [bind]. rewrite H, app_assoc. reflexivity. Qed.
Lemma gives_call e l : gives (call e) l tt [e l].
Proof. reflexivity. Qed.
Lemma gives_throw ok e l : ok l = true -> gives (callOrThrow ok e) l tt [e true].
Proof. unfold gives, callOrThrow. intros ->. reflexivity. Qed.
Lemma gives_described {A} w (m : act A) l a ext : gives m l a ext -> gives (described w m) l a ext.
Proof. unfold gives, described. intros ->. reflexivity. Qed.
Lemma gives_acquire ok e l : ok l = true -> gives (acquire ok e) l (length l) [e (Some (length l))].
Proof. unfold gives, acquire. intros ->. reflexivity. Qed.
Lemma gives_scoped {A} (m : act A) e l a ext : gives m l a ext -> gives (scoped m e) l a (ext ++ [e]).
Proof. unfold gives, scoped. intros ->. cbn [bind]. rewrite app_assoc. reflexivity. Qed.

(** calls that neither open nor write files *)
Definition no_file (e : event) : Prop := match e with FileOpen _ _ | FileWrite _ _ _ => False | _ => True end.
Lemma files_skip a b : Forall no_file a -> files (a ++ b) = files b.
Proof. induction 1 as [|e a He _ IH]; [reflexivity|]. cbn [app]. destruct e; cbn [files]; try exact IH; destruct He. Qed.
Lemma content_skip h a b : Forall no_file a -> content h (a ++ b) = content h b.
Proof. induction 1 as [|e a He _ IH]; [reflexivity|]. cbn [app]. destruct e; cbn [content]; try exact IH; destruct He. Qed.
Lemma files_none a : Forall no_file a -> files a = [].
Proof. intros H. rewrite <- (app_nil_r a), files_skip by exact H. reflexivity. Qed.
Lemma content_none h a : Forall no_file a -> content h a = [].
Proof. intros H. rewrite <- (app_nil_r a), content_skip by exact H. reflexivity. Qed.

Lemma pass_steady w enc isDir ucs utf render height u face d : steady w enc isDir ucs utf render height -> single_byte (fun _ => ucs) u ->
  forall c e l, 0 <= c < 256 -> rendered_ok (render (u c)) -> encoder_ok e -> pending e = [] ->
  exists dd e' ext, gives (tablePass w face d enc c e newBits) l (dd, e', newBits) ext /\ holds (render (u c)) dd /\ encoder_ok e' /\ pending e' = [] /\
    convertRaw (fun _ => ucs) (u8 c) e = Ok (u c, e') /\ packGlyph (render (u c)) newBits = Ok (dd, newBits) /\
    Forall no_file ext /\ loaded ext = [u c].
Proof.
  intros HS Hu c e l Hc Hr He Hp. assert (Hu8 : u8 c = c) by (unfold u8; apply Z.mod_small; lia).
  destruct (convertBytes_step (fun _ => ucs) c e He) as (e' & He' & _ & E & P). rewrite Hp in E, P. cbn [app] in E, P.
  destruct (Hu (calls e) c Hc) as (x0 & x1 & x2 & x3 & Ei & Eu). cbv beta in Ei. rewrite Ei in E, P.
  assert (EC : convertRaw (fun _ => ucs) (u8 c) e = Ok (u c, e')).
  { unfold convertRaw. rewrite Hu8, E. cbn [bind]. rewrite Eu. reflexivity. }
  destruct (packGlyph_holds (render (u c)) Hr) as (dd & Ed & Hd).
  assert (EC' : forall l, convertRaw (fun _ => wIconv w l (txt "UCS-4LE") enc) (u8 c) e = Ok (u c, e')).
  { intros l0. rewrite <- EC. unfold convertRaw, convertBytes. destruct (wr (ebuf e) (inSize e) (u8 c)); try reflexivity. cbn [bind].
    destruct (rd_slice a 0 (1 + inSize e)); try reflexivity. cbn [bind]. destruct (HS l0) as (_ & _ & _ & _ & _ & _ & _ & _ & _ & _ & _ & _ & _ & HI & _).
    rewrite HI. reflexivity. }
  eexists dd, e', _. split.
  - unfold tablePass, gives. cbv beta. eapply gives_bind; [apply gives_call|]. eapply gives_bind; [apply gives_lift; apply EC'|]. cbv beta iota.
    eapply gives_bind.
    + unfold renderGlyph. eapply gives_bind; [apply gives_described, gives_throw; apply (HS _)|]. eapply gives_bind; [apply gives_described, gives_throw; apply (HS _)|]. apply gives_acquire. apply (HS _).
    + eapply gives_bind.
      * apply gives_scoped. unfold packed_glyph. eapply gives_bind; [apply gives_throw; apply (HS _)|]. unfold gives. cbv beta. apply gives_lift.
        match goal with |- packGlyph (wGlyph w ?x _) _ = _ => destruct (HS x) as (_ & _ & _ & _ & _ & _ & _ & _ & _ & _ & _ & HG & _) end. rewrite HG. exact Ed.
      * cbv beta iota. apply gives_ret.
  - split; [exact Hd|]. split; [exact He'|]. split; [exact P|]. split; [exact EC|]. split; [exact Ed|]. split; [repeat constructor|reflexivity].
Qed.
Lemma scan_steady w enc isDir ucs utf render height u face d : steady w enc isDir ucs utf render height -> single_byte (fun _ => ucs) u ->
  forall codes e l, (forall c, In c codes -> 0 <= c < 256) -> (forall c, In c codes -> rendered_ok (render (u c))) -> encoder_ok e -> pending e = [] ->
  exists t ext, gives (tableScan w face d enc codes e newBits) l t ext /\ Forall2 (fun c d => holds (render (u c)) d) codes t /\
    tableLoop (fun _ => ucs) render codes e newBits = Ok t /\ Forall no_file ext /\ loaded ext = map u codes.
Proof.
  intros HS Hu. induction codes as [|c codes IH]; intros e l Hc Hr He Hp; cbn [tableScan tableLoop map].
  - exists [], []. split; [apply gives_ret|]. repeat split; constructor.
  - destruct (pass_steady w enc isDir ucs utf render height u face d HS Hu c e l (Hc c (or_introl eq_refl)) (Hr c (or_introl eq_refl)) He Hp)
      as (dd & e' & x & G & Hd & He' & Hp' & EC & Ed & N & L).
    destruct (IH e' (l ++ x)) as (t & y & G2 & F2 & T2 & N2 & L2); [intros z Hz; apply Hc; right; exact Hz|intros z Hz; apply Hr; right; exact Hz|exact He'|exact Hp'|].
    exists (dd :: t), (x ++ y ++ []). split; [eapply gives_bind; [exact G|]; cbv beta iota; eapply gives_bind; [exact G2|apply gives_ret]|].
    split; [constructor; assumption|]. rewrite EC. cbn [bind]. rewrite Ed. cbn [bind]. rewrite T2. split; [reflexivity|].
    rewrite app_nil_r. split; [apply Forall_app; auto|]. rewrite loaded_app, L, L2. reflexivity.
Qed.
Lemma table_steady w enc isDir ucs utf render height u face lst : steady w enc isDir ucs utf render height -> single_byte (fun _ => ucs) u ->
  forall l, codeLoop 256 firstChar lst = Ok (font_codes firstChar lst) -> lst < 256 -> (forall c, firstChar <= c <= lst -> rendered_ok (render (u c))) ->
  exists t ext, gives (readTable w face enc firstChar lst) l t ext /\ Forall2 (fun c d => holds (render (u c)) d) (font_codes firstChar lst) t /\
    tableLoop (fun _ => ucs) render (font_codes firstChar lst) newEncoder newBits = Ok t /\ Forall no_file ext /\ loaded ext = map u (font_codes firstChar lst).
Proof.
  intros HS Hu l EL Hl Hr. set (codes := font_codes firstChar lst) in *.
  assert (Hin : forall c, In c codes -> firstChar <= c <= lst /\ ~ (127 <= c <= 159)) by (intros c; apply font_codes_in).
  destruct (scan_steady w enc isDir ucs utf render height u face (length l) HS Hu codes newEncoder
             ((l ++ [IconvOpen (txt "UCS-4LE") enc (Some (length l))]) ++ [])) as (t & x & G & F & T & N & L).
  { intros c Hc. apply Hin in Hc. unfold firstChar in Hc. lia. }
  { intros c Hc. apply Hr. apply Hin. exact Hc. }
  { split; [reflexivity|cbn; lia]. }
  { reflexivity. }
  exists t. eexists. split.
  - unfold readTable. eapply gives_bind; [apply gives_acquire; apply (HS _)|]. cbv beta. apply gives_scoped. eapply gives_bind; [apply gives_lift; exact EL|]. exact G.
  - split; [exact F|]. split; [exact T|]. split; [repeat (apply Forall_app; split); repeat constructor; exact N|].
    cbn [app]. cbn [loaded]. rewrite loaded_app, L. cbn [loaded]. apply app_nil_r.
Qed.

(** ** The header *)
Definition addS (p : list Z) (s : stream) : stream := mkStream (sbo s) (p ++ file s).
Definition addG (p : list Z) (t : glyphStream) : glyphStream := mkGS (addS p (gs t)) (enc t) (currentGlyph t) (glyphLast t) (textOffset t).
Lemma ins_add os p s : ins os (addS p s) = bind (ins os s) (fun s => Ok (addS p s)).
Proof. unfold ins. cbn [sbo addS]. destruct (irun os (sbo s)); reflexivity. Qed.
Lemma flush_add p s : flush (addS p s) = addS p (flush s).
Proof. unfold flush. cbn [sbo addS file]. destruct (0 <? zlen (asStringView (sbo s))); [|reflexivity]. unfold addS. cbn [sbo file]. rewrite app_assoc. reflexivity. Qed.
Ltac add_ins := rewrite ins_add; match goal with |- context [bind (ins ?a ?s) _] => destruct (ins a s) as [?| |]; [|reflexivity|reflexivity] end; cbn [bind].
Lemma putGlyph_add iconv junk g p t : putGlyph iconv junk g (addG p t) = bind (putGlyph iconv junk g t) (fun t => Ok (addG p t)).
Proof.
  unfold putGlyph. cbn [addG gs enc currentGlyph glyphLast textOffset]. cbv zeta. add_ins.
  destruct (currentGlyph t <? glyphLast t); add_ins;
    (destruct ((32 <=? currentGlyph t) && (currentGlyph t <=? 126)); [add_ins
     |destruct (126 <? currentGlyph t);
      [destruct (convertBytes iconv (u8 (currentGlyph t)) (enc t)) as [[o e]| |]; [|reflexivity|reflexivity]; cbn [bind]; add_ins
      |cbn [bind]]]; add_ins; rewrite flush_add; reflexivity).
Qed.
Lemma putGlyphs_add iconv junk p gl : forall t, putGlyphs iconv junk gl (addG p t) = bind (putGlyphs iconv junk gl t) (fun t => Ok (addG p t)).
Proof.
  induction gl as [|g gl IH]; intros t; cbn [putGlyphs]; [reflexivity|]. rewrite putGlyph_add. destruct (putGlyph iconv junk g t) as [t1| |]; [|reflexivity|reflexivity].
  cbn [bind]. apply IH.
Qed.
Lemma closeGlyphs_add p t : closeGlyphs (addG p t) = bind (closeGlyphs t) (fun f => Ok (p ++ f)).
Proof.
  unfold closeGlyphs. cbn [gs addG]. rewrite ins_add. destruct (ins [ICStr [nl; 0]] (gs t)) as [s| |]; [|reflexivity|reflexivity]. cbn [bind].
  rewrite !flush_add. reflexivity.
Qed.
Lemma openGlyphs_add name ascii p : openGlyphs name ascii p = addG p (openGlyphs name ascii []).
Proof. reflexivity. Qed.
(** the header file is written in three pieces *)
Lemma headerFile_pieces iconv junk name ascii t first last height out : headerFile iconv junk name ascii t first last height = Ok out ->
  exists a g b c, bitmapText name t = Ok a /\ putGlyphs iconv junk (map fst t) (openGlyphs name ascii []) = Ok g /\ closeGlyphs g = Ok b /\
    fontStruct name first last height junk = Ok c /\ out = a ++ b ++ c.
Proof.
  unfold headerFile, bitmapText. intros H. apply bind_inv in H. destruct H as (h & E1 & H). apply bind_inv in H. destruct H as (h2 & E2 & H).
  apply bind_inv in H. destruct H as (a & E3 & H). rewrite E1. cbn [bind]. rewrite E2. cbn [bind]. rewrite E3. exists a.
  rewrite openGlyphs_add, putGlyphs_add in H. destruct (putGlyphs iconv junk (map fst t) (openGlyphs name ascii [])) as [g| |]; [|discriminate|discriminate].
  cbn [bind] in H. rewrite closeGlyphs_add in H. destruct (closeGlyphs g) as [b| |] eqn:Eb; [|discriminate|discriminate]. cbn [bind] in H.
  apply bind_inv in H. destruct H as (c & E4 & H). apply Ok_inj in H. exists g, b, c. rewrite app_assoc. auto.
Qed.

Lemma putGlyph_ext i1 i2 junk g t : (forall n x, i1 n x = i2 n x) -> putGlyph i1 junk g t = putGlyph i2 junk g t.
Proof.
  intros H. unfold putGlyph. destruct (ins _ (gs t)); try reflexivity. cbn [bind].
  match goal with |- bind ?m _ = bind ?m _ => destruct m end; try reflexivity. cbn [bind].
  assert (E : convertBytes i1 (u8 (currentGlyph t)) (enc t) = convertBytes i2 (u8 (currentGlyph t)) (enc t)).
  { unfold convertBytes. destruct (wr _ _ _); try reflexivity. cbn [bind]. destruct (rd_slice _ _ _); try reflexivity. cbn [bind]. rewrite H. reflexivity. }
  rewrite E. reflexivity.
Qed.
Lemma glyphs_steady w enc isDir ucs utf render height d junk : steady w enc isDir ucs utf render height ->
  forall gl t t' l, putGlyphs (fun _ => utf) junk gl t = Ok t' ->
  exists ext, gives (glyphScan w junk d enc gl t) l t' ext /\ Forall no_file ext /\ loaded ext = [].
Proof.
  intros HS. induction gl as [|g gl IH]; intros t t' l H; cbn [putGlyphs glyphScan] in *.
  - apply Ok_inj in H. subst t'. exists []. split; [apply gives_ret|]. split; [constructor|reflexivity].
  - apply bind_inv in H. destruct H as (t1 & E1 & H).
    assert (E2 : putGlyph (fun _ => wIconv w l (txt "UTF-8") enc) junk g t = Ok t1).
    { rewrite <- E1. apply putGlyph_ext. intros _ x. apply (HS l). }
    set (first := if 126 <? currentGlyph t then [Iconv d (iconvInput (u8 (currentGlyph t)) (M_FontText.enc t))] else []).
    destruct (IH t1 t' ((l ++ first) ++ []) H) as (x & G & N & L).
    exists (first ++ [] ++ x). split.
    + unfold gives. cbv beta. eapply gives_bind; [|eapply gives_bind; [apply gives_lift; exact E2|exact G]].
      unfold first. destruct (126 <? currentGlyph t); [apply gives_call|apply gives_ret].
    + cbn [app]. unfold first. destruct (126 <? currentGlyph t); cbn [app loaded]; split; auto. constructor; [exact I|exact N].
Qed.
Lemma header_steady w enc isDir ucs utf render height junk name dir t lst h : steady w enc isDir ucs utf render height ->
  forall out l, headerFile (fun _ => utf) junk name (eqbl enc asciiName) t firstChar lst h = Ok out ->
  exists ext, gives (writeHeader w junk name dir enc t firstChar lst h) l tt ext /\ loaded ext = [] /\
    forall rest, Forall no_file rest -> files (ext ++ rest) = [(inDirectory dir (name ++ txt ".h"), out)].
Proof.
  intros HS out l H. apply headerFile_pieces in H. destruct H as (a & g & b & c & E1 & E2 & E3 & E4 & ->).
  set (p := inDirectory dir (name ++ txt ".h")). set (f := length l).
  set (l1 := (((l ++ [FileOpen p (Some f)]) ++ []) ++ [FileWrite f a true])).
  destruct (glyphs_steady w enc isDir ucs utf render height (length l1) junk HS (map fst t) _ g
             (l1 ++ [IconvOpen (txt "UTF-8") enc (Some (length l1))]) E2) as (x & G & N & L).
  assert (HW : forall l b, gives (write w f b) l tt [FileWrite f b true]).
  { intros l0 b0. unfold write, gives, call. destruct (HS l0) as (_ & _ & _ & _ & _ & _ & _ & _ & _ & _ & -> & _). reflexivity. }
  eexists. split.
  - unfold writeHeader. eapply gives_bind; [apply gives_acquire; apply (HS _)|]. cbv beta. apply gives_scoped. fold f. fold p.
    eapply gives_bind; [apply gives_lift; exact E1|]. eapply gives_bind; [apply HW|]. fold l1.
    eapply gives_bind; [apply gives_acquire; apply (HS _)|]. cbv beta. eapply gives_bind.
    + apply gives_scoped. eapply gives_bind; [exact G|]. cbv beta. eapply gives_bind; [apply gives_lift; exact E3|]. apply HW.
    + eapply gives_bind; [apply gives_lift; exact E4|]. apply HW.
  - cbn [app]. split.
    + cbn [loaded]. repeat (rewrite ?loaded_app; cbn [loaded app]). rewrite L. reflexivity.
    + intros rest Hr. repeat (rewrite <- ?app_assoc; cbn [app files content]). rewrite Nat.eqb_refl.
      rewrite files_skip by exact N. rewrite content_skip by exact N. cbn [app files content]. rewrite Nat.eqb_refl, files_none by exact Hr.
      rewrite content_none by exact Hr. rewrite app_nil_r. reflexivity.
Qed.

Lemma writeAll_steady w enc isDir ucs utf render height f : steady w enc isDir ucs utf render height -> forall rs l,
  gives (writeAll w f rs) l tt (map (fun r => FileWrite f r true) rs).
Proof.
  intros HS. induction rs as [|r rs IH]; intros l; cbn [writeAll map]; [apply gives_ret|].
  change (FileWrite f r true :: map (fun r => FileWrite f r true) rs) with ([FileWrite f r true] ++ map (fun r => FileWrite f r true) rs).
  eapply gives_bind; [|apply IH]. unfold write, gives, call. destruct (HS l) as (_ & _ & _ & _ & _ & _ & _ & _ & _ & _ & -> & _). reflexivity.
Qed.
Lemma content_writes h rs rest : content h (map (fun r => FileWrite h r true) rs ++ rest) = concat rs ++ content h rest.
Proof. induction rs as [|r rs IH]; [reflexivity|]. cbn [map app content concat]. rewrite Nat.eqb_refl, IH, app_assoc. reflexivity. Qed.
Lemma content_others h f rs rest : f <> h -> content h (map (fun r => FileWrite f r true) rs ++ rest) = content h rest.
Proof. intros Hn. induction rs as [|r rs IH]; [reflexivity|]. cbn [map app content]. apply Nat.eqb_neq in Hn. rewrite Hn. exact IH. Qed.
Lemma files_writes f rs rest : files (map (fun r => FileWrite f r true) rs ++ rest) = files rest.
Proof. induction rs as [|r rs IH]; [reflexivity|]. exact IH. Qed.
Lemma loaded_writes f rs : loaded (map (fun r => FileWrite f r true) rs) = [].
Proof. induction rs as [|r rs IH]; [reflexivity|]. exact IH. Qed.
Lemma binary_steady w enc isDir ucs utf render height dir name t : steady w enc isDir ucs utf render height -> forall l,
  exists ext, gives (writeBinary w dir name t) l tt ext /\ loaded ext = [] /\
    forall rest, Forall no_file rest -> files (ext ++ rest) = [(inDirectory dir (name ++ txt "Bitmaps.bin"), bitmapsFile t); (inDirectory dir (name ++ txt "Glyphs.bin"), glyphsFile t)].
Proof.
  intros HS l. eexists. split.
  - unfold writeBinary. eapply gives_bind; [apply gives_acquire; apply (HS _)|]. cbv beta. eapply gives_bind; [apply gives_scoped; eapply writeAll_steady; exact HS|].
    eapply gives_bind; [apply gives_acquire; apply (HS _)|]. cbv beta. apply gives_scoped. eapply writeAll_steady. exact HS.
  - cbn [app]. split.
    + cbn [loaded]. repeat (rewrite ?loaded_app, ?loaded_writes; cbn [loaded app]). reflexivity.
    + intros rest Hr. repeat (rewrite <- ?app_assoc; cbn [app files content]). rewrite content_writes, files_writes. repeat (rewrite <- ?app_assoc; cbn [app files content]).
      rewrite content_writes, files_writes, content_others. 2: { rewrite !app_length. cbn [length]. lia. }
      cbn [app files content]. rewrite (files_none rest Hr), !(content_none _ rest Hr), !app_nil_r. reflexivity.
Qed.

(** ** Paths *)
Lemma ends_slash (d : list Z) : (exists x, d = x ++ [47]) <-> d <> [] /\ List.last d 0 = 47.
Proof.
  split.
  - intros (x & ->). split; [destruct x; discriminate|]. apply last_last.
  - intros [H E]. exists (removelast d). rewrite <- E. apply app_removelast_last. exact H.
Qed.
Lemma inDirectory_path dir name : path_in dir name (inDirectory dir name).
Proof.
  unfold path_in, inDirectory. destruct dir as [|c dir]; [left; auto|]. right. set (d := c :: dir). assert (Hd : d <> []) by discriminate.
  destruct (Z.eqb_spec (List.last d 0) 47) as [E|E].
  - left. split; [apply ends_slash; auto|reflexivity].
  - right. split; [exact Hd|]. split; [|reflexivity]. intros H. apply ends_slash in H. tauto.
Qed.
Lemma dropName_spec r : exists n, r = n ++ dropName r /\ ~ In 47 n /\ (dropName r = [] \/ exists q, dropName r = 47 :: q).
Proof.
  induction r as [|c r (n & E & H & T)]; cbn [dropName]; [exists []; auto|]. destruct (Z.eqb_spec c 47) as [->|Hc].
  - exists []. split; [reflexivity|]. split; [intros []|]. right. exists r. reflexivity.
  - exists (c :: n). split; [cbn [app]; rewrite <- E; reflexivity|]. split; [|exact T]. intros [X|X]; auto.
Qed.
Lemma dropSlashes_spec r : exists n, r = n ++ dropSlashes r /\ Forall (eq 47) n /\ (forall q, dropSlashes r <> 47 :: q).
Proof.
  induction r as [|c r (n & E & H & T)]; cbn [dropSlashes]; [exists []; repeat split; [constructor|discriminate]|]. destruct (Z.eqb_spec c 47) as [->|Hc].
  - exists (47 :: n). split; [cbn [app]; rewrite <- E; reflexivity|]. split; [constructor; auto|exact T].
  - exists []. split; [reflexivity|]. split; [constructor|]. intros q X. injection X as X _. auto.
Qed.
Lemma parentPath_spec s : directory_of s (parentPath s).
Proof.
  destruct (dropName_spec (rev s)) as (n & E1 & N1 & T1). destruct (dropSlashes_spec (dropName (rev s))) as (k & E2 & N2 & T2).
  set (d := dropSlashes (dropName (rev s))) in *.
  assert (Es : s = rev d ++ rev k ++ rev n).
  { rewrite <- (rev_involutive s), E1, E2, !rev_app_distr, app_assoc. reflexivity. }
  assert (Nn : ~ In 47 (rev n)) by (intros X; apply N1; apply in_rev; exact X).
  assert (Nk : Forall (eq 47) (rev k)) by (apply Forall_rev; exact N2).
  unfold parentPath. fold d. unfold directory_of. destruct d as [|c d'] eqn:Ed.
  - cbn [rev app] in *. destruct T1 as [T1|(q & T1)].
    + left. rewrite T1 in E2. destruct k as [|k0 k]; [|discriminate]. cbn [rev app] in Es. subst s. split; [exact Nn|].
      destruct (rev n) as [|x r]; [reflexivity|]. destruct (Z.eqb_spec x 47) as [->|_]; [exfalso; apply Nn; left; reflexivity|reflexivity].
    + right. right. destruct (rev k) as [|x r] eqn:Ek.
      { exfalso. rewrite T1, app_nil_r in E2. assert (K : k = []) by (rewrite <- (rev_involutive k), Ek; reflexivity). rewrite K in E2. discriminate. }
      pose proof (Forall_inv Nk) as <-. exists r, (rev n). rewrite Es. cbn [app]. change (47 =? 47) with true. cbv iota.
      split; [reflexivity|]. split; [exact (Forall_inv_tail Nk)|]. split; [exact Nn|reflexivity].
  - right. left. destruct (rev (c :: d')) as [|x r] eqn:Er; [apply (f_equal (@length Z)) in Er; rewrite rev_length in Er; discriminate|].
    exists (rev k), (rev n). split; [exact Es|]. split; [|split; [exact Nk|split; [exact Nn|split; [discriminate|]]]].
    + intros X. assert (K : k = []) by (rewrite <- (rev_involutive k), X; reflexivity). subst k. cbn [app] in E2.
      destruct T1 as [T1|(q & T1)]; [rewrite T1 in E2; discriminate|]. rewrite T1 in E2. exact (T2 q (eq_sym E2)).
    + intros (y & Ey). assert (X : c :: d' = rev (y ++ [47])) by (rewrite <- Ey, <- Er, rev_involutive; reflexivity).
      rewrite rev_app_distr in X. cbn [rev app] in X. exact (T2 _ X).
Qed.

(** ** The whole run *)
Lemma convert_steady w isDir ucs utf render height u junk argv0 directory j :
  steady w (jobEncoding j) isDir ucs utf render height -> single_byte (fun _ => ucs) u ->
  (jobLast j = if eqbl (jobEncoding j) asciiName then 126 else 255) ->
  (forall c, firstChar <= c <= jobLast j -> rendered_ok (render (u c))) ->
  let dir := if isDir then directory else parentPath argv0 in
  (jobBinary j = false -> -2147483648 <= Z.quot height 64 < 2147483648) ->
  (forall t, Forall2 (fun c d => holds (render (u c)) d) (font_codes firstChar (jobLast j)) t ->
     tableLoop (fun _ => ucs) render (font_codes firstChar (jobLast j)) newEncoder newBits = Ok t -> jobBinary j = false ->
     exists o, headerFile (fun _ => utf) junk (jobName j) (eqbl (jobEncoding j) asciiName) t firstChar (jobLast j) (Z.quot height 64) = Ok o) ->
  exists t l, convert w junk argv0 directory j [] = Ok (Val tt, l) /\ Forall2 (fun c d => holds (render (u c)) d) (font_codes firstChar (jobLast j)) t /\
    tableLoop (fun _ => ucs) render (font_codes firstChar (jobLast j)) newEncoder newBits = Ok t /\
    loaded l = map u (font_codes firstChar (jobLast j)) /\
    (jobBinary j = true -> files l = [(inDirectory dir (jobName j ++ txt "Bitmaps.bin"), bitmapsFile t); (inDirectory dir (jobName j ++ txt "Glyphs.bin"), glyphsFile t)]) /\
    (jobBinary j = false -> forall o, headerFile (fun _ => utf) junk (jobName j) (eqbl (jobEncoding j) asciiName) t firstChar (jobLast j) (Z.quot height 64) = Ok o ->
       files l = [(inDirectory dir (jobName j ++ txt ".h"), o)]).
Proof.
  intros HS Hu HL Hr dir Hh Ho.
  set (l0 := (((([IsDirectory directory true] ++ [FtInit (Some 1%nat)]) ++ [FtPropertySet 1]) ++ [FtNewFace 1 (jobFont j) (Some 3%nat)]) ++
              [FtSetCharSize 3 (jobCharSize j) 0 (jobDpi j) 0 true])).
  assert (Hl : jobLast j < 256) by (rewrite HL; destruct (eqbl _ _); lia).
  destruct (table_steady w (jobEncoding j) isDir ucs utf render height u 3%nat (jobLast j) HS Hu l0 (job_codes j HL) Hl Hr) as (t & x & G & F & T & N & L).
  assert (B : gives (fun l => Ok (match wIsDirectory w l with Some b => Val b | None => Exn end,
                              l ++ [IsDirectory directory (match wIsDirectory w l with Some _ => true | None => false end)])) [] isDir [IsDirectory directory true]).
  { unfold gives. destruct (HS []) as (-> & _). reflexivity. }
  assert (R : forall (k : bool -> nat -> list glyphData -> act unit) ext, gives (k isDir 3%nat t) (l0 ++ x) tt ext ->
    gives (let* isDir := (fun l => Ok (match wIsDirectory w l with Some b => Val b | None => Exn end,
                              l ++ [IsDirectory directory (match wIsDirectory w l with Some _ => true | None => false end)])) in
      let* library := described w (acquire (wInit w) FtInit) in
      scoped (let* _ := call (fun _ => FtPropertySet library) in
        let* face := described w (acquire (wNewFace w) (FtNewFace library (jobFont j))) in
        scoped (let* _ := described w (callOrThrow (wSetCharSize w) (FtSetCharSize face (jobCharSize j) 0 (jobDpi j) 0)) in
          let* t := readTable w face (jobEncoding j) firstChar (jobLast j) in
          k isDir face t) (FtDoneFace face)) (FtDone library)) [] tt
      ([IsDirectory directory true] ++ [FtInit (Some 1%nat)] ++ ([FtPropertySet 1] ++ [FtNewFace 1 (jobFont j) (Some 3%nat)] ++
        ([FtSetCharSize 3 (jobCharSize j) 0 (jobDpi j) 0 true] ++ x ++ ext) ++ [FtDoneFace 3]) ++ [FtDone 1])).
  { intros k ext Gk. eapply gives_bind; [exact B|]. eapply gives_bind; [apply gives_described, gives_acquire; apply (HS _)|]. cbv beta.
    change (length ([] ++ [IsDirectory directory true])) with 1%nat. apply gives_scoped. eapply gives_bind; [apply gives_call|].
    eapply gives_bind; [apply gives_described, gives_acquire; apply (HS _)|]. cbv beta.
    match goal with |- context [length ?z] => change (length z) with 3%nat end. apply gives_scoped.
    eapply gives_bind; [apply gives_described, gives_throw; apply (HS _)|]. eapply gives_bind; [exact G|exact Gk]. }
  exists t.
  assert (Q : forall ext rest, files ([IsDirectory directory true] ++ [FtInit (Some 1%nat)] ++ ([FtPropertySet 1] ++ [FtNewFace 1 (jobFont j) (Some 3%nat)] ++
        ([FtSetCharSize 3 (jobCharSize j) 0 (jobDpi j) 0 true] ++ x ++ ext) ++ rest)) = files (ext ++ rest)).
  { intros ext rest. repeat (rewrite <- ?app_assoc; cbn [app files]). apply files_skip. exact N. }
  destruct (jobBinary j) eqn:EB.
  - destruct (binary_steady w (jobEncoding j) isDir ucs utf render height dir (jobName j) t HS (l0 ++ x)) as (y & Gy & Ly & Fy).
    eexists. split; [|split; [exact F|split; [exact T|split; [|split; [|discriminate]]]]].
    + unfold convert. rewrite EB. exact (R (fun b _ t => writeBinary w (if b then directory else parentPath argv0) (jobName j) t) y Gy).
    + repeat (rewrite ?loaded_app; cbn [app loaded]). rewrite Ly, L, !app_nil_r. reflexivity.
    + intros _. cbn [app]. rewrite <- (Fy [FtDoneFace 3; FtDone 1] ltac:(repeat constructor)), <- (Q y). repeat (rewrite <- ?app_assoc; cbn [app files]). reflexivity.
  - destruct (Ho t F T eq_refl) as (o & Eo). specialize (Hh eq_refl).
    destruct (header_steady w (jobEncoding j) isDir ucs utf render height junk (jobName j) dir t (jobLast j) (Z.quot height 64) HS o ((l0 ++ x) ++ [ReadHeight 3] ++ []) Eo) as (y & Gy & Ly & Fy).
    eexists. split; [|split; [exact F|split; [exact T|split; [|split; [discriminate|]]]]].
    + unfold convert. rewrite EB. refine (R (fun b face t => let* _ := call (fun _ => ReadHeight face) in let* height := (fun l => lift (chk (Z.quot (wHeight w l) 64)) l) in
        writeHeader w junk (jobName j) (if b then directory else parentPath argv0) (jobEncoding j) t firstChar (jobLast j) height) ([ReadHeight 3] ++ [] ++ y) _).
      eapply gives_bind; [apply gives_call|]. eapply gives_bind.
      * unfold gives. cbv beta. apply gives_lift. match goal with |- context [wHeight w ?z] => destruct (HS z) as (_ & _ & _ & _ & _ & _ & _ & _ & _ & _ & _ & _ & -> & _) end.
        apply chk_ok. unfold INT_MIN, INT_MAX. lia.
      * rewrite <- app_assoc. exact Gy.
    + repeat (rewrite ?loaded_app; cbn [app loaded]). rewrite Ly, L, !app_nil_r. reflexivity.
    + intros _ o' Eo'. rewrite Eo in Eo'. apply Ok_inj in Eo'. subst o'. cbn [app].
      rewrite <- (Fy [FtDoneFace 3; FtDone 1] ltac:(repeat constructor)).
      change (files (y ++ [FtDoneFace 3; FtDone 1])) with (files ((ReadHeight 3 :: y) ++ [FtDoneFace 3; FtDone 1])).
      rewrite <- (Q (ReadHeight 3 :: y)). repeat (rewrite <- ?app_assoc; cbn [app files]). reflexivity.
Qed.
