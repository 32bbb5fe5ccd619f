(** Lemmas about the order of the font converter's calls. *)
From Coq Require Import String.
From Verif Require Import Base S_Font S_Options M_BufferedOut M_Font M_Packing M_FontText M_Options M_Converter S_Converter S_ConverterOrder L_Converter L_ConverterSteady.
Open Scope Z_scope.
Open Scope list_scope.

Definition inT (T : log -> event -> Prop) (l : log) : Prop := forall b e a, l = b ++ e :: a -> T b e.
(** [m], started after the calls [l] with [P l], makes only calls in turn; [Q a] holds if it ends with [a] *)
Definition turns {A} (T : log -> event -> Prop) (P : log -> Prop) (m : act A) (Q : A -> log -> Prop) : Prop :=
  forall l o l', inT T l -> P l -> m l = Ok (o, l') -> inT T l' /\ match o with Val a => Q a l' | Exn => True end.
Lemma inT_snoc (T : log -> event -> Prop) l e : inT T l -> T l e -> inT T (l ++ [e]).
Proof.
  intros H He b x a E. destruct (exists_last (l := x :: a)) as (a' & y & Ea); [discriminate|]. rewrite Ea in E.
  rewrite app_assoc in E. apply app_inj_tail in E. destruct E as [E <-].
  destruct a' as [|x' a']; [cbn in Ea; injection Ea as -> _; rewrite app_nil_r in E; subst b; exact He|].
  cbn in Ea. injection Ea as -> Ea. apply (H b x' a'). exact E.
Qed.
Lemma turns_ret {A} (T : log -> event -> Prop) (P : log -> Prop) (a : A) (Q : A -> log -> Prop) : (forall l, P l -> Q a l) -> turns T P (ret a) Q.
Proof. intros HQ l o l' HT HP H. apply Ok_inj in H. injection H as <- <-. split; [exact HT|exact (HQ l HP)]. Qed.
Lemma turns_lift {A} (T : log -> event -> Prop) (P : log -> Prop) (r : res A) (Q : A -> log -> Prop) : (forall a l, P l -> Q a l) -> turns T P (lift r) Q.
Proof. intros HQ l o l' HT HP H. unfold lift in H. apply bind_inv in H. destruct H as (a & _ & H). apply Ok_inj in H. injection H as <- <-. split; [exact HT|exact (HQ a l HP)]. Qed.
Lemma turns_bind {A B} (T : log -> event -> Prop) (P : log -> Prop) (m : act A) (k : A -> act B) Q R : turns T P m Q -> (forall a, turns T (Q a) (k a) R) -> turns T P (andThen m k) R.
Proof.
  intros Hm Hk l o l' HT HP H. unfold andThen in H. apply bind_inv in H. destruct H as ([o1 l1] & H1 & H).
  destruct (Hm l o1 l1 HT HP H1) as [T1 Q1]. destruct o1 as [a|].
  - exact (Hk a l1 o l' T1 Q1 H).
  - apply Ok_inj in H. injection H as <- <-. split; [exact T1|exact I].
Qed.
Lemma turns_call (T : log -> event -> Prop) (P : log -> Prop) e (Q : unit -> log -> Prop) : (forall l, P l -> T l (e l)) -> (forall l, P l -> Q tt (l ++ [e l])) -> turns T P (call e) Q.
Proof. intros HE HQ l o l' HT HP H. apply Ok_inj in H. injection H as <- <-. split; [exact (inT_snoc T l _ HT (HE l HP))|exact (HQ l HP)]. Qed.
Lemma turns_throw (T : log -> event -> Prop) (P : log -> Prop) ok e (Q : unit -> log -> Prop) : (forall l b, P l -> T l (e b)) -> (forall l, P l -> Q tt (l ++ [e true])) -> turns T P (callOrThrow ok e) Q.
Proof.
  intros HE HQ l o l' HT HP H. apply Ok_inj in H. injection H as <- <-. split; [exact (inT_snoc T l _ HT (HE l _ HP))|].
  destruct (ok l); [exact (HQ l HP)|exact I].
Qed.
Lemma turns_acquire (T : log -> event -> Prop) (P : log -> Prop) ok e (Q : nat -> log -> Prop) : (forall l b, P l -> T l (e b)) -> (forall l, P l -> Q (length l) (l ++ [e (Some (length l))])) -> turns T P (acquire ok e) Q.
Proof.
  intros HE HQ l o l' HT HP H. apply Ok_inj in H. destruct (ok l); injection H as <- <-; (split; [exact (inT_snoc T l _ HT (HE l _ HP))|]); [exact (HQ l HP)|exact I].
Qed.
Lemma turns_described {A} (T : log -> event -> Prop) (P : log -> Prop) w (m : act A) Q : turns T P m Q -> turns T P (described w m) Q.
Proof. intros H l o l' HT HP E. exact (H l o l' HT HP (described_inv _ _ _ _ E)). Qed.
Lemma turns_scoped {A} (T : log -> event -> Prop) (P : log -> Prop) (m : act A) e (Q R : A -> log -> Prop) : (forall l, T l e) -> turns T P m Q -> (forall a l, Q a l -> R a (l ++ [e])) -> turns T P (scoped m e) R.
Proof.
  intros HE Hm HR l o l' HT HP H. unfold scoped in H. apply bind_inv in H. destruct H as ([o1 l1] & H1 & H). apply Ok_inj in H. injection H as <- <-.
  destruct (Hm l o1 l1 HT HP H1) as [T1 Q1]. split; [exact (inT_snoc T l1 e T1 (HE l1))|]. destruct o1; [exact (HR a l1 Q1)|exact I].
Qed.
Lemma turns_use {A} (T : log -> event -> Prop) (P : log -> Prop) (m : act A) (Q : A -> log -> Prop) l o l' : m l = Ok (o, l') -> inT T l -> P l -> turns T P m Q -> inT T l' /\ match o with Val a => Q a l' | Exn => True end.
Proof. intros H HT HP Hm. exact (Hm l o l' HT HP H). Qed.
Lemma turns_pre {A} (T : log -> event -> Prop) (P P' : log -> Prop) (m : act A) Q : (forall l, P l -> P' l) -> turns T P' m Q -> turns T P m Q.
Proof. intros HP Hm l o l' HT H0 H. exact (Hm l o l' HT (HP l H0) H). Qed.
Ltac past_t Q := let l := fresh "past" in let E := fresh "E" in let HT := fresh "HT" in let HP := fresh "HP" in
  intros l ?o ?l' HT HP E; cbv beta in E; refine (turns_use _ _ _ Q _ _ _ E HT HP _); clear E HT HP.

Lemma after_snoc l e : just_after (l ++ [e]) e.
Proof. exists l. reflexivity. Qed.
Lemma opened_snoc l e : match e with FileOpen _ _ => False | _ => True end -> file_opened (l ++ [e]) -> file_opened l.
Proof. intros He (p & h & H). apply in_app_iff in H. destruct H as [H|[->|[]]]; [exists p, h; exact H|destruct He]. Qed.
Lemma opened_mono l e : file_opened l -> file_opened (l ++ [e]).
Proof. intros (p & h & H). exists p, h. apply in_or_app. left. exact H. Qed.
Lemma scaled_snoc j f l e : scaled j f l -> scaled j f (l ++ [e]).
Proof. intros H. apply in_or_app. left. exact H. Qed.

(** before the files are opened *)
Definition before_files (j : job) (face : nat) (l : log) : Prop := scaled j face l /\ ~ file_opened l.
Lemma before_snoc j f l e : match e with FileOpen _ _ => False | _ => True end -> before_files j f l -> before_files j f (l ++ [e]).
Proof. intros He [A B]. split; [apply scaled_snoc; exact A|]. intros H. apply B. exact (opened_snoc l e He H). Qed.
Ltac keep := intros; apply before_snoc; [exact I|]; tauto.

Lemma turns_render j directory argv0 w face u : turns (in_turn j directory argv0) (before_files j face) (renderGlyph w face u)
  (fun g l => before_files j face l /\ just_after l (FtGetGlyph face (Some g))).
Proof.
  unfold renderGlyph.
  apply (turns_bind _ _ _ _ (fun _ l => before_files j face l /\ just_after l (FtLoadChar face u true))).
  { apply turns_described, turns_throw; [intros l b [A _]; exact A|]. intros l H. split; [keep|apply after_snoc]. }
  intros []. apply (turns_bind _ _ _ _ (fun _ l => before_files j face l /\ just_after l (FtRenderGlyph face true))).
  { apply turns_described, turns_throw; [intros l b [_ A]; exists u; exact A|]. intros l [H _]. split; [keep|apply after_snoc]. }
  intros []. apply turns_acquire; [intros l b [_ A]; exact A|]. intros l [H _]. split; [keep|apply after_snoc].
Qed.
Lemma turns_pass j directory argv0 w face d enc i e b : turns (in_turn j directory argv0) (before_files j face) (tablePass w face d enc i e b) (fun _ => before_files j face).
Proof.
  unfold tablePass. past_t (fun (_ : glyphData * encoder * bitStream) => before_files j face).
  apply (turns_bind _ _ _ _ (fun _ => before_files j face)); [apply turns_call; [intros; exact I|keep]|intros []].
  apply (turns_bind _ _ _ _ (fun _ => before_files j face)); [apply turns_lift; auto|intros [u e']].
  eapply turns_bind; [apply turns_render|intros g].
  apply (turns_bind _ _ _ _ (fun _ => before_files j face)); [|intros [dd s']; apply turns_ret; auto].
  eapply (turns_scoped _ _ _ _ (fun _ => before_files j face)); [intros l; exact I| |keep]. unfold packed_glyph.
  apply (turns_bind _ _ _ _ (fun _ => before_files j face)).
  { apply turns_throw; [intros l bb [_ A]; exists face; exact A|]. intros l [H _]. keep. }
  intros []. past_t (fun (_ : glyphData * bitStream) => before_files j face). apply turns_lift. auto.
Qed.
Lemma turns_scan j directory argv0 w face d enc codes : forall e b, turns (in_turn j directory argv0) (before_files j face) (tableScan w face d enc codes e b) (fun _ => before_files j face).
Proof.
  induction codes as [|i codes IH]; intros e b; cbn [tableScan]; [apply turns_ret; auto|].
  eapply turns_bind; [apply turns_pass|intros [[dd e'] b']]. eapply turns_bind; [apply IH|intros t; apply turns_ret; auto].
Qed.
Lemma turns_table j directory argv0 w face first last : turns (in_turn j directory argv0) (before_files j face) (readTable w face (jobEncoding j) first last) (fun _ => before_files j face).
Proof.
  unfold readTable. apply (turns_bind _ _ _ _ (fun _ => before_files j face)).
  { apply turns_acquire; [|keep]. intros l b [_ H]. split; [reflexivity|]. left. split; [reflexivity|exact H]. }
  intros d. eapply (turns_scoped _ _ _ _ (fun _ => before_files j face)); [intros l; exact I| |keep].
  eapply turns_bind; [apply (turns_lift _ _ _ (fun _ => before_files j face)); auto|intros codes]. apply turns_scan.
Qed.
Definition anyway (l : log) : Prop := True.
Lemma turns_write j directory argv0 w f b : turns (in_turn j directory argv0) anyway (write w f b) (fun _ => anyway).
Proof. apply turns_call; intros; exact I. Qed.
Lemma turns_writeAll j directory argv0 w f rs : turns (in_turn j directory argv0) anyway (writeAll w f rs) (fun _ => anyway).
Proof. induction rs as [|r rs IH]; cbn [writeAll]; [apply turns_ret; auto|]. eapply turns_bind; [apply turns_write|intros []; exact IH]. Qed.
Lemma turns_binary j directory argv0 w dir t : dir = directory \/ directory_of argv0 dir -> jobBinary j = true ->
  turns (in_turn j directory argv0) anyway (writeBinary w dir (jobName j) t) (fun _ => anyway).
Proof.
  intros Hd HB. unfold writeBinary. apply (turns_bind _ _ _ _ (fun _ => anyway)).
  { apply turns_acquire; [|intros; exact I]. intros l b _. exists dir, (jobName j ++ txt "Bitmaps.bin"). split; [exact Hd|]. unfold output_name. rewrite HB. split; [left; reflexivity|apply inDirectory_path]. }
  intros f. eapply turns_bind; [eapply (turns_scoped _ _ _ _ (fun _ => anyway) (fun _ => anyway)); [intros; exact I|apply turns_writeAll|intros; exact I]|intros []].
  apply (turns_bind _ _ _ _ (fun _ => anyway)).
  { apply turns_acquire; [|intros; exact I]. intros l b _. exists dir, (jobName j ++ txt "Glyphs.bin"). split; [exact Hd|]. unfold output_name. rewrite HB. split; [right; reflexivity|apply inDirectory_path]. }
  intros f2. eapply (turns_scoped _ _ _ _ (fun _ => anyway)); [intros; exact I|apply turns_writeAll|intros; exact I].
Qed.
Lemma turns_glyphs j directory argv0 w junk d enc gl : forall t, turns (in_turn j directory argv0) anyway (glyphScan w junk d enc gl t) (fun _ => anyway).
Proof.
  induction gl as [|g gl IH]; intros t; cbn [glyphScan]; [apply turns_ret; auto|]. past_t (fun (_ : glyphStream) => anyway).
  apply (turns_bind _ _ _ _ (fun _ => anyway)); [destruct (126 <? currentGlyph t); [apply turns_call; intros; exact I|apply turns_ret; auto]|intros []].
  apply (turns_bind _ _ _ _ (fun _ => anyway)); [apply turns_lift; auto|intros t']. apply IH.
Qed.
Lemma turns_header j directory argv0 w junk dir t first last height : dir = directory \/ directory_of argv0 dir -> jobBinary j = false ->
  turns (in_turn j directory argv0) anyway (writeHeader w junk (jobName j) dir (jobEncoding j) t first last height) (fun _ => anyway).
Proof.
  intros Hd HB. unfold writeHeader. apply (turns_bind _ _ _ _ (fun _ => file_opened)).
  { apply turns_acquire.
    - intros l b _. exists dir, (jobName j ++ txt ".h"). split; [exact Hd|]. unfold output_name. rewrite HB. split; [reflexivity|apply inDirectory_path].
    - intros l _. eexists _, _. apply in_or_app. right. left. reflexivity. }
  intros f. eapply (turns_scoped _ _ _ _ (fun _ => anyway)); [intros; exact I| |intros; exact I].
  apply (turns_bind _ _ _ _ (fun _ => file_opened)); [apply turns_lift; auto|intros text].
  apply (turns_bind _ _ _ _ (fun _ => file_opened)); [apply turns_call; [intros; exact I|intros; apply opened_mono; assumption]|intros []].
  apply (turns_bind _ _ _ _ (fun _ => anyway)).
  { apply turns_acquire; [|intros; exact I]. intros l b H. split; [reflexivity|]. right. split; [reflexivity|]. split; [exact H|exact HB]. }
  intros d. apply (turns_bind _ _ _ _ (fun _ => anyway)).
  { eapply (turns_scoped _ _ _ _ (fun _ => anyway)); [intros; exact I| |intros; exact I].
    eapply turns_bind; [apply turns_glyphs|intros g]. apply (turns_bind _ _ _ _ (fun _ => anyway)); [apply turns_lift; auto|intros text2]. apply turns_write. }
  intros []. apply (turns_bind _ _ _ _ (fun _ => anyway)); [apply turns_lift; auto|intros text2]. apply turns_write.
Qed.
Lemma turns_convert w junk argv0 directory j : turns (in_turn j directory argv0) (fun l => l = []) (convert w junk argv0 directory j) (fun _ => anyway).
Proof.
  assert (N : forall e, match e with FileOpen _ _ => False | _ => True end -> ~ file_opened [e]).
  { intros e He (p & h & [H|[]]). subst e. exact He. }
  unfold convert. apply (turns_bind _ _ _ _ (fun _ l => ~ file_opened l)).
  - intros l o l' HT -> H. apply Ok_inj in H. injection H as <- <-. split; [apply (inT_snoc _ [] _ HT); reflexivity|].
    cbn [app]. destruct (wIsDirectory w []); [|exact I]. apply N. exact I.
  - intros isDir. assert (Hd : (if isDir then directory else parentPath argv0) = directory \/ directory_of argv0 (if isDir then directory else parentPath argv0)).
    { destruct isDir; [left; reflexivity|right; apply parentPath_spec]. }
    assert (NS : forall l e, match e with FileOpen _ _ => False | _ => True end -> ~ file_opened l -> ~ file_opened (l ++ [e])).
    { intros l e He H K. apply H. exact (opened_snoc l e He K). }
    apply (turns_bind _ _ _ _ (fun _ l => ~ file_opened l)); [apply turns_described, turns_acquire; [intros; exact I|intros; apply NS; [exact I|assumption]]|intros lib].
    eapply (turns_scoped _ _ _ _ (fun _ => anyway)); [intros; exact I| |intros; exact I].
    apply (turns_bind _ _ _ _ (fun _ l => ~ file_opened l /\ In (FtPropertySet lib) l)).
    { apply turns_call; [intros; exact I|]. intros l H. split; [apply NS; [exact I|exact H]|apply in_or_app; right; left; reflexivity]. }
    intros []. apply (turns_bind _ _ _ _ (fun _ l => ~ file_opened l)).
    { apply turns_described, turns_acquire; [intros l b [_ H]; split; [reflexivity|exact H]|intros l [H _]; apply NS; [exact I|exact H]]. }
    intros face. eapply (turns_scoped _ _ _ _ (fun _ => anyway)); [intros; exact I| |intros; exact I].
    apply (turns_bind _ _ _ _ (fun _ => before_files j face)).
    { apply turns_described, turns_throw; [intros; reflexivity|]. intros l H. split; [apply in_or_app; right; left; reflexivity|apply NS; [exact I|exact H]]. }
    intros []. eapply turns_bind; [apply turns_table|intros t]. destruct (jobBinary j) eqn:HB.
    + apply (turns_pre _ _ anyway); [intros; exact I|]. apply turns_binary; assumption.
    + apply (turns_bind _ _ _ _ (fun _ => anyway)); [apply turns_call; [intros l [H _]; exact H|intros; exact I]|intros []].
      apply (turns_bind _ _ _ _ (fun _ => anyway)); [past_t (fun (_ : Z) => anyway); apply turns_lift; auto|intros height]. apply turns_header; assumption.
Qed.
