(** Lemmas about the font converter's runs with a FreeType that has no text for some errors. *)
From Coq Require Import String.
From Verif Require Import Base M_BufferedOut M_Font M_Packing M_FontText M_Options M_Converter S_Converter L_Converter.
Open Scope Z_scope.
Open Scope list_scope.

(** an error without text among the calls [ext] after [l] *)
Definition lacks (w : world) (l ext : log) : Prop :=
  exists b e a, ext = b ++ e :: a /\ to_describe e /\ wErrorText w (l ++ b ++ [e]) = false.
Lemma lacks_nil w l : ~ lacks w l [].
Proof. intros (b & e & a & H & _). destruct b; discriminate. Qed.
Lemma lacks_quiet w l e : ~ to_describe e -> ~ lacks w l [e].
Proof. intros He (b & x & a & H & Hx & _). destruct b as [|y [|]]; [injection H as <- _; auto|discriminate|discriminate]. Qed.
Lemma lacks_left w l x y : lacks w l x -> lacks w l (x ++ y).
Proof. intros (b & e & a & -> & H). exists b, e, (a ++ y). rewrite <- app_assoc. split; [reflexivity|exact H]. Qed.
Lemma lacks_right w l x y : lacks w (l ++ x) y -> lacks w l (x ++ y).
Proof. intros (b & e & a & -> & H1 & H2). exists (x ++ b), e, a. rewrite <- !app_assoc in *. split; [reflexivity|]. split; [exact H1|exact H2]. Qed.
Lemma lacks_app w l x y : lacks w l (x ++ y) -> lacks w l x \/ lacks w (l ++ x) y.
Proof.
  intros (b & e & a & E & H1 & H2). revert b E H2. revert l. induction x as [|z x IH]; intros l b E H2.
  - right. exists b, e, a. rewrite app_nil_r. auto.
  - destruct b as [|z' b]; cbn [app] in E.
    + left. injection E as -> _. exists [], e, x. auto.
    + injection E as -> E. assert (H3 : wErrorText w ((l ++ [z']) ++ b ++ [e]) = false) by (rewrite <- app_assoc; exact H2).
      destruct (IH (l ++ [z']) b E H3) as [(b1 & e1 & a1 & -> & K1 & K2)|K].
      * left. exists (z' :: b1), e1, a1. rewrite <- app_assoc in K2. auto.
      * right. rewrite <- app_assoc in K. exact K.
Qed.

(** [m2] does what [m1] does unless that runs into an error without text *)
Definition same {A} (w : world) (m1 m2 : act A) : Prop := forall l o l', m1 l = Ok (o, l') -> exists ext, l' = l ++ ext /\
  (m2 l = Ok (o, l') /\ ~ lacks w l ext \/ m2 l = UB /\ lacks w l ext).
Lemma same_ret {A} w (a : A) : same w (ret a) (ret a).
Proof. intros l o l' H. exists []. rewrite app_nil_r. pose proof (Ok_inj _ _ H) as E. injection E as <- <-. split; [reflexivity|]. left. split; [exact H|apply lacks_nil]. Qed.
Lemma same_lift {A} w (r : res A) : same w (lift r) (lift r).
Proof. intros l o l' H. pose proof H as E. unfold lift in E. apply bind_inv in E. destruct E as (a & -> & _). exact (same_ret w a l o l' H). Qed.
Lemma same_bind {A B} w (m1 m2 : act A) (k1 k2 : A -> act B) : same w m1 m2 -> (forall a, same w (k1 a) (k2 a)) -> same w (andThen m1 k1) (andThen m2 k2).
Proof.
  intros Hm Hk l o l' H. unfold andThen in *. apply bind_inv in H. destruct H as ([o1 l1] & H1 & H).
  destruct (Hm l o1 l1 H1) as (e1 & -> & C). destruct o1 as [a|].
  - destruct (Hk a _ o l' H) as (e2 & -> & D). exists (e1 ++ e2). rewrite app_assoc. split; [reflexivity|].
    destruct C as [[-> C]|[-> C]]; [|right; split; [reflexivity|apply lacks_left; exact C]]. cbn [bind].
    destruct D as [[-> D]|[-> D]]; [|right; split; [reflexivity|apply lacks_right; exact D]].
    left. split; [reflexivity|]. intros K. apply lacks_app in K. tauto.
  - apply Ok_inj in H. injection H as <- <-. exists e1. split; [reflexivity|].
    destruct C as [[-> C]|[-> C]]; [left; split; [reflexivity|exact C]|right; split; [reflexivity|exact C]].
Qed.
Lemma same_one {A} w (m : act A) : (forall l o l', m l = Ok (o, l') -> exists e, l' = l ++ [e] /\ ~ to_describe e) -> same w m m.
Proof. intros Hm l o l' H. destruct (Hm l o l' H) as (e & -> & He). exists [e]. split; [reflexivity|]. left. split; [exact H|apply lacks_quiet; exact He]. Qed.
Lemma same_call w e : (forall l, ~ to_describe (e l)) -> same w (call e) (call e).
Proof. intros He. apply same_one. intros l o l' H. apply Ok_inj in H. injection H as _ <-. eauto. Qed.
Lemma same_throw w ok e : (forall b, ~ to_describe (e b)) -> same w (callOrThrow ok e) (callOrThrow ok e).
Proof. intros He. apply same_one. intros l o l' H. apply Ok_inj in H. injection H as _ <-. eauto. Qed.
Lemma same_acquire w ok e : (forall b, ~ to_describe (e b)) -> same w (acquire ok e) (acquire ok e).
Proof. intros He. apply same_one. intros l o l' H. apply Ok_inj in H. destruct (ok l); injection H as _ <-; eauto. Qed.
Lemma same_scoped {A} w (m1 m2 : act A) e : ~ to_describe e -> same w m1 m2 -> same w (scoped m1 e) (scoped m2 e).
Proof.
  intros He Hm l o l' H. unfold scoped in *. apply bind_inv in H. destruct H as ([o1 l1] & H1 & H). apply Ok_inj in H. injection H as <- <-.
  destruct (Hm l o1 l1 H1) as (e1 & -> & C). exists (e1 ++ [e]). rewrite app_assoc. split; [reflexivity|].
  destruct C as [[-> C]|[-> C]]; [|right; split; [reflexivity|apply lacks_left; exact C]].
  left. split; [reflexivity|]. intros K. apply lacks_app in K. destruct K as [K|K]; [exact (C K)|exact (lacks_quiet _ _ _ He K)].
Qed.
(** the calls whose errors are described *)
Lemma same_described {A} w (m : act A) : (forall l o l', m l = Ok (o, l') -> exists e, l' = l ++ [e] /\ match o with Val _ => ~ to_describe e | Exn => to_describe e end) ->
  same w (described (with_texts w) m) (described w m).
Proof.
  intros Hm l o l' H. pose proof (described_inv _ _ _ _ H) as E. destruct (Hm l o l' E) as (e & -> & He). exists [e]. split; [reflexivity|].
  unfold described. rewrite E. cbn [bind]. destruct o; [left; split; [reflexivity|apply lacks_quiet; exact He]|].
  unfold guard. destruct (wErrorText w (l ++ [e])) eqn:T; [left; split; [reflexivity|]|right; split; [reflexivity|exists [], e, []; auto]].
  intros (b & x & a & K & _ & Kt). destruct b as [|y [|]]; [injection K as <- _; cbn [app] in Kt; congruence|discriminate|discriminate].
Qed.
Lemma same_throw_d w ok e : ~ to_describe (e true) -> to_describe (e false) -> same w (described (with_texts w) (callOrThrow ok e)) (described w (callOrThrow ok e)).
Proof. intros H1 H2. apply same_described. intros l o l' H. apply Ok_inj in H. injection H as <- <-. exists (e (ok l)). split; [reflexivity|]. destruct (ok l); assumption. Qed.
Lemma same_acquire_d w ok e : (forall h, ~ to_describe (e (Some h))) -> to_describe (e None) -> same w (described (with_texts w) (acquire ok e)) (described w (acquire ok e)).
Proof. intros H1 H2. apply same_described. intros l o l' H. apply Ok_inj in H. destruct (ok l); injection H as <- <-; eexists; (split; [reflexivity|]); [apply H1|exact H2]. Qed.
Lemma same_now {A} w (m1 m2 : log -> act A) : (forall l, same w (m1 l) (m2 l)) -> same w (fun l => m1 l l) (fun l => m2 l l).
Proof. intros H l o l' E. exact (H l l o l' E). Qed.
Ltac qt := intros; first [exact (fun H => H)|discriminate].

Lemma same_render w face u : same w (renderGlyph (with_texts w) face u) (renderGlyph w face u).
Proof.
  unfold renderGlyph. apply same_bind; [apply same_throw_d; [discriminate|reflexivity]|intros _].
  apply same_bind; [apply same_throw_d; [discriminate|reflexivity]|intros _]. apply same_acquire. qt.
Qed.
Lemma same_pass w face d enc i e b : same w (tablePass (with_texts w) face d enc i e b) (tablePass w face d enc i e b).
Proof.
  unfold tablePass. apply (same_now w (fun past => let* _ := call (fun _ => Iconv d (iconvInput (u8 i) e)) in
    let* ' (symbol, e) := lift (convertRaw (fun _ => wIconv w past (txt "UCS-4LE") enc) (u8 i) e) in
    let* g := renderGlyph (with_texts w) face symbol in
    let* ' (d, s) := scoped (packed_glyph (with_texts w) g symbol b) (FtDoneGlyph g) in ret (d, e, s))
    (fun past => let* _ := call (fun _ => Iconv d (iconvInput (u8 i) e)) in
    let* ' (symbol, e) := lift (convertRaw (fun _ => wIconv w past (txt "UCS-4LE") enc) (u8 i) e) in
    let* g := renderGlyph w face symbol in
    let* ' (d, s) := scoped (packed_glyph w g symbol b) (FtDoneGlyph g) in ret (d, e, s))).
  intros past. apply same_bind; [apply same_call; qt|intros _]. apply same_bind; [apply same_lift|intros [u e']].
  apply same_bind; [apply same_render|intros g]. apply same_bind; [|intros [dd s']; apply same_ret]. apply same_scoped; [qt|].
  unfold packed_glyph. apply same_bind; [apply same_throw; qt|intros _].
  apply (same_now w (fun l => lift (packGlyph (wGlyph w l u) b)) (fun l => lift (packGlyph (wGlyph w l u) b))). intros l. apply same_lift.
Qed.
Lemma same_scan w face d enc codes : forall e b, same w (tableScan (with_texts w) face d enc codes e b) (tableScan w face d enc codes e b).
Proof.
  induction codes as [|i codes IH]; intros e b; cbn [tableScan]; [apply same_ret|].
  apply same_bind; [apply same_pass|intros [[dd e'] b']]. apply same_bind; [apply IH|intros t; apply same_ret].
Qed.
Lemma same_table w face enc first last : same w (readTable (with_texts w) face enc first last) (readTable w face enc first last).
Proof.
  unfold readTable. apply same_bind; [apply same_acquire; qt|intros d]. apply same_scoped; [qt|]. apply same_bind; [apply same_lift|intros codes]. apply same_scan.
Qed.
Lemma same_write w f b : same w (write (with_texts w) f b) (write w f b).
Proof. apply same_call. qt. Qed.
Lemma same_writeAll w f rs : same w (writeAll (with_texts w) f rs) (writeAll w f rs).
Proof. induction rs as [|r rs IH]; cbn [writeAll]; [apply same_ret|]. apply same_bind; [apply same_write|intros _; exact IH]. Qed.
Lemma same_binary w dir name t : same w (writeBinary (with_texts w) dir name t) (writeBinary w dir name t).
Proof.
  unfold writeBinary. apply same_bind; [apply same_acquire; qt|intros f]. apply same_bind; [apply same_scoped; [qt|apply same_writeAll]|intros _].
  apply same_bind; [apply same_acquire; qt|intros f2]. apply same_scoped; [qt|apply same_writeAll].
Qed.
Lemma same_glyphs w junk d code gl : forall t, same w (glyphScan (with_texts w) junk d code gl t) (glyphScan w junk d code gl t).
Proof.
  induction gl as [|g gl IH]; intros t; cbn [glyphScan]; [apply same_ret|].
  apply (same_now w (fun past => let* _ := if 126 <? currentGlyph t then call (fun _ => Iconv d (iconvInput (u8 (currentGlyph t)) (enc t))) else ret tt in
    let* t := lift (putGlyph (fun _ => wIconv w past (txt "UTF-8") code) junk g t) in glyphScan (with_texts w) junk d code gl t)
    (fun past => let* _ := if 126 <? currentGlyph t then call (fun _ => Iconv d (iconvInput (u8 (currentGlyph t)) (enc t))) else ret tt in
    let* t := lift (putGlyph (fun _ => wIconv w past (txt "UTF-8") code) junk g t) in glyphScan w junk d code gl t)).
  intros past. apply same_bind; [destruct (126 <? currentGlyph t); [apply same_call; qt|apply same_ret]|intros _].
  apply same_bind; [apply same_lift|intros t']. apply IH.
Qed.
Lemma same_header w junk name dir enc t first last height :
  same w (writeHeader (with_texts w) junk name dir enc t first last height) (writeHeader w junk name dir enc t first last height).
Proof.
  unfold writeHeader. apply same_bind; [apply same_acquire; qt|intros f]. apply same_scoped; [qt|].
  apply same_bind; [apply same_lift|intros text]. apply same_bind; [apply same_write|intros _]. apply same_bind; [apply same_acquire; qt|intros d].
  apply same_bind; [|intros _; apply same_bind; [apply same_lift|intros text2; apply same_write]].
  apply same_scoped; [qt|]. apply same_bind; [apply same_glyphs|intros g]. apply same_bind; [apply same_lift|intros text2; apply same_write].
Qed.
Lemma same_convert w junk argv0 directory j : same w (convert (with_texts w) junk argv0 directory j) (convert w junk argv0 directory j).
Proof.
  unfold convert. apply same_bind.
  { apply same_one. intros l o l' H. apply Ok_inj in H. injection H as _ <-. eexists. split; [reflexivity|qt]. }
  intros isDir. apply same_bind; [apply same_acquire_d; [discriminate|reflexivity]|intros lib]. apply same_scoped; [qt|].
  apply same_bind; [apply same_call; qt|intros _]. apply same_bind; [apply same_acquire_d; [discriminate|reflexivity]|intros face]. apply same_scoped; [qt|].
  apply same_bind; [apply same_throw_d; [discriminate|reflexivity]|intros _]. apply same_bind; [apply same_table|intros t].
  destruct (jobBinary j); [apply same_binary|]. apply same_bind; [apply same_call; qt|intros _]. apply same_bind; [|intros height; apply same_header].
  apply (same_now w (fun l => lift (chk (Z.quot (wHeight w l) 64))) (fun l => lift (chk (Z.quot (wHeight w l) 64)))). intros l. apply same_lift.
Qed.
