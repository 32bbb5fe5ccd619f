(** Lemmas about runs of the font converter. *)
From Coq Require Import String.
From Verif Require Import Base S_Font M_BufferedOut M_Font M_Packing M_FontText M_Options M_Converter S_Converter.
Open Scope Z_scope.
Open Scope list_scope.

Lemma bind_inv {A B} (m : res A) (k : A -> res B) b : bind m k = Ok b -> exists a, m = Ok a /\ k a = Ok b.
Proof. destruct m as [a| |]; cbn; intros H; try discriminate. exists a. auto. Qed.

Lemma described_inv {A} w (m : act A) l r : described w m l = Ok r -> m l = Ok r.
Proof.
  unfold described. intros H. apply bind_inv in H. destruct H as ([[a|] l'] & E & H); [rewrite E; exact H|].
  unfold guard in H. destruct (wErrorText w l'); [rewrite E; exact H|discriminate].
Qed.
Definition fine (e : event) : Prop := ~ failed e.
Definition below (s : stack) (n : nat) : Prop := Forall (fun p => (snd p < n)%nat) s.

Lemma below_mono s n m : below s n -> (n <= m)%nat -> below s m.
Proof. intros H Hm. eapply Forall_impl; [|exact H]. cbn. intros p Hp. lia. Qed.
Lemma steps_app s l t l2 u : steps s l t -> steps t l2 u -> steps s (l ++ l2) u.
Proof. intros H. induction H as [|s e s' l t He H IH]; intros H2; [exact H2|]. cbn [app]. econstructor; [exact He|]. apply IH. exact H2. Qed.
Lemma steps_one s e t : step s e t -> steps s [e] t.
Proof. intros H. econstructor; [exact H|constructor]. Qed.

(** after [m] started with the open handles [s]: the handles [v a] are open if it ends with [a], [x] if it throws *)
Definition runs {A} (m : act A) (s : stack) (v : A -> stack) (x : stack) : Prop :=
  forall l o l', below s (length l) -> m l = Ok (o, l') -> exists ext, l' = l ++ ext /\
    match o with
    | Val a => steps s ext (v a) /\ Forall fine ext /\ below (v a) (length l')
    | Exn => steps s ext x /\ exists pre e post, ext = pre ++ e :: post /\ Forall fine pre /\ failed e /\ Forall gives_back post
    end.

Lemma runs_ret {A} (a : A) s x : runs (ret a) s (fun _ => s) x.
Proof.
  intros l o l' Hb H. apply Ok_inj in H. injection H as <- <-. exists []. rewrite app_nil_r. split; [reflexivity|].
  split; [constructor|]. split; [constructor|exact Hb].
Qed.
Lemma runs_lift {A} (r : res A) s x : runs (lift r) s (fun _ => s) x.
Proof.
  intros l o l' Hb H. unfold lift in H. apply bind_inv in H. destruct H as (a & _ & H). exact (runs_ret a s x l o l' Hb H).
Qed.
Lemma runs_bind {A B} (m : act A) (k : A -> act B) s v1 v2 x :
  runs m s v1 x -> (forall a, runs (k a) (v1 a) v2 x) -> runs (andThen m k) s v2 x.
Proof.
  intros Hm Hk l o l' Hb H. unfold andThen in H. apply bind_inv in H. destruct H as ([o1 l1] & H1 & H).
  destruct (Hm l o1 l1 Hb H1) as (e1 & -> & R1). destruct o1 as [a|].
  - destruct R1 as (S1 & F1 & B1). destruct (Hk a _ o l' B1 H) as (e2 & -> & R2). exists (e1 ++ e2). rewrite app_assoc. split; [reflexivity|].
    destruct o as [b|].
    + destruct R2 as (S2 & F2 & B2). split; [eapply steps_app; eassumption|]. split; [apply Forall_app; auto|exact B2].
    + destruct R2 as (S2 & pre & e & post & -> & P1 & P2 & P3). split; [eapply steps_app; eassumption|].
      exists (e1 ++ pre), e, post. rewrite <- app_assoc. split; [reflexivity|]. split; [apply Forall_app; auto|auto].
  - apply Ok_inj in H. injection H as <- <-. exists e1. split; [reflexivity|exact R1].
Qed.
Lemma runs_use {A} (m : act A) s v x l o l' : m l = Ok (o, l') -> below s (length l) -> runs m s v x -> exists ext, l' = l ++ ext /\
    match o with
    | Val a => steps s ext (v a) /\ Forall fine ext /\ below (v a) (length l')
    | Exn => steps s ext x /\ exists pre e post, ext = pre ++ e :: post /\ Forall fine pre /\ failed e /\ Forall gives_back post
    end.
Proof. intros H Hb Hr. exact (Hr l o l' Hb H). Qed.
Ltac past := let l := fresh "past" in let E := fresh "E" in let Hb := fresh "Hb" in
  intros l ?o ?l' Hb E; cbv beta in E; eapply (runs_use _ _ _ _ _ _ _ E Hb); clear E Hb.

Lemma runs_call e s x : (forall l, step s (e l) s) -> (forall l, fine (e l)) -> runs (call e) s (fun _ => s) x.
Proof.
  intros He Hf l o l' Hb H. unfold call in H. apply Ok_inj in H. injection H as <- <-. exists [e l]. split; [reflexivity|].
  split; [apply steps_one; apply He|]. split; [constructor; [apply Hf|constructor]|]. eapply below_mono; [exact Hb|]. rewrite app_length. cbn. lia.
Qed.
Lemma runs_throw ok e s : (forall b, step s (e b) s) -> fine (e true) -> failed (e false) ->
  runs (callOrThrow ok e) s (fun _ => s) s.
Proof.
  intros He Hf Hx l o l' Hb H. unfold callOrThrow in H. apply Ok_inj in H. injection H as <- <-. exists [e (ok l)]. split; [reflexivity|].
  destruct (ok l).
  - split; [apply steps_one; apply He|]. split; [constructor; [exact Hf|constructor]|]. eapply below_mono; [exact Hb|]. rewrite app_length. cbn. lia.
  - split; [apply steps_one; apply He|]. exists [], (e false), []. split; [reflexivity|]. split; [constructor|]. split; [exact Hx|constructor].
Qed.
Lemma runs_acquire ok e k s :
  (forall h, opens (e (Some h)) = Some h /\ opens_kind (e (Some h)) = k /\ fine (e (Some h))) ->
  (forall h, closes (e h) = None) -> (forall h j, works_on (e h) = Some j -> In (works_kind (e h), j) s) ->
  opens (e None) = None -> failed (e None) ->
  runs (acquire ok e) s (fun h => (k, h) :: s) s.
Proof.
  intros Ho Hc Hw Hn Hx l o l' Hb H. unfold acquire in H. apply Ok_inj in H. destruct (ok l).
  - injection H as <- <-. exists [e (Some (length l))]. split; [reflexivity|]. destruct (Ho (length l)) as (O1 & O2 & O3).
    split; [|split].
    + apply steps_one. rewrite <- O2. apply Opens; [apply Hc|apply Hw|exact O1|]. intros Hin. apply in_map_iff in Hin.
      destruct Hin as (p & Hp & Hin). unfold below in Hb. rewrite Forall_forall in Hb. specialize (Hb p Hin). lia.
    + constructor; [exact O3|constructor].
    + rewrite app_length. cbn. constructor; [cbn; lia|]. eapply below_mono; [exact Hb|lia].
  - injection H as <- <-. exists [e None]. split; [reflexivity|]. split.
    + apply steps_one. apply Works; [apply Hc|exact Hn|apply Hw].
    + exists [], (e None), []. split; [reflexivity|]. split; [constructor|]. split; [exact Hx|constructor].
Qed.
Lemma runs_scoped {A} (m : act A) e k h s : closes e = Some h -> closes_kind e = k -> fine e ->
  runs m ((k, h) :: s) (fun _ => (k, h) :: s) ((k, h) :: s) -> runs (scoped m e) ((k, h) :: s) (fun _ => s) s.
Proof.
  intros Hc Hk Hf Hm l o l' Hb H. unfold scoped in H. apply bind_inv in H. destruct H as ([o1 l1] & H1 & H).
  apply Ok_inj in H. injection H as <- <-. destruct (Hm l o1 l1 Hb H1) as (e1 & -> & R). exists (e1 ++ [e]). rewrite app_assoc. split; [reflexivity|].
  assert (E : steps ((k, h) :: s) [e] s) by (apply steps_one; rewrite <- Hk; apply Closes; exact Hc).
  destruct o1 as [a|].
  - destruct R as (S1 & F1 & B1). split; [eapply steps_app; eassumption|]. split; [apply Forall_app; split; [exact F1|constructor; [exact Hf|constructor]]|].
    inversion B1; subst. eapply below_mono; [eassumption|]. rewrite !app_length. lia.
  - destruct R as (S1 & pre & f & post & -> & P1 & P2 & P3). split; [eapply steps_app; eassumption|].
    exists pre, f, (post ++ [e]). rewrite <- app_assoc. split; [reflexivity|]. split; [exact P1|]. split; [exact P2|].
    apply Forall_app. split; [exact P3|]. constructor; [|constructor]. unfold gives_back. rewrite Hc. discriminate.
Qed.

Lemma runs_described {A} w (m : act A) s v x : runs m s v x -> runs (described w m) s v x.
Proof. intros H l o l' Hb E. exact (H l o l' Hb (described_inv _ _ _ _ E)). Qed.

Lemma works_in s e k h : closes e = None -> opens e = None -> works_on e = Some h -> works_kind e = k -> In (k, h) s -> step s e s.
Proof. intros H1 H2 H3 <- H4. apply Works; [exact H1|exact H2|]. intros j Hj. rewrite H3 in Hj. injection Hj as <-. exact H4. Qed.
Ltac wstep := eapply works_in; [reflexivity|reflexivity|reflexivity|reflexivity|cbn [In]; tauto].

Lemma runs_render w face u s : In (KFace, face) s -> runs (renderGlyph w face u) s (fun g => (KGlyph, g) :: s) s.
Proof.
  intros Hf. unfold renderGlyph. eapply runs_bind; [apply runs_described, runs_throw; [intros b; wstep|discriminate|reflexivity]|intros []].
  eapply runs_bind; [apply runs_described, runs_throw; [intros b; wstep|discriminate|reflexivity]|intros []].
  apply runs_acquire; [intros h; repeat split; discriminate|reflexivity| |reflexivity|reflexivity].
  intros h j Hj. injection Hj as <-. exact Hf.
Qed.
Lemma runs_pass w face d enc i e b s : In (KFace, face) s -> In (KIconv, d) s ->
  runs (tablePass w face d enc i e b) s (fun _ => s) s.
Proof.
  intros Hf Hd. unfold tablePass. past.
  eapply runs_bind; [apply runs_call; [intros l; wstep|intros l H; exact H]|intros []].
  eapply runs_bind; [apply runs_lift|intros [u e']].
  eapply runs_bind; [apply runs_render; exact Hf|intros g].
  eapply (runs_bind _ _ _ (fun _ => s)); [|intros [dd s']; apply runs_ret].
  apply runs_scoped; [reflexivity|reflexivity|intros H; exact H|]. unfold packed_glyph.
  eapply runs_bind; [apply runs_throw; [intros c; wstep|discriminate|reflexivity]|intros []].
  past. apply runs_lift.
Qed.
Lemma runs_scan w face d enc codes : forall e b s, In (KFace, face) s -> In (KIconv, d) s ->
  runs (tableScan w face d enc codes e b) s (fun _ => s) s.
Proof.
  induction codes as [|i codes IH]; intros e b s Hf Hd; cbn [tableScan]; [apply runs_ret|].
  eapply runs_bind; [apply runs_pass; assumption|intros [[dd e'] b']].
  eapply runs_bind; [apply IH; assumption|intros t; apply runs_ret].
Qed.
Ltac acq := eapply runs_acquire; [intros ?h; split; [reflexivity|split; [cbn [opens_kind]; reflexivity|discriminate]]|reflexivity|let h := fresh in let j := fresh in let Hj := fresh in intros h j Hj; cbn in Hj; first [discriminate|injection Hj as <-; cbn [In]; tauto]|reflexivity|reflexivity].
Ltac scp := apply runs_scoped; [reflexivity|reflexivity|intros ?H; exact H|].
Lemma runs_table w face enc first last s : In (KFace, face) s -> runs (readTable w face enc first last) s (fun _ => s) s.
Proof.
  intros Hf. unfold readTable. eapply runs_bind; [acq|intros d]. scp.
  eapply runs_bind; [apply runs_lift|intros codes]. apply runs_scan; cbn [In]; tauto.
Qed.
Lemma runs_write w f b s x : In (KFile, f) s -> runs (write w f b) s (fun _ => s) x.
Proof. intros H. apply runs_call; [intros l; wstep|intros l X; exact X]. Qed.
Lemma runs_writeAll w f rs s x : In (KFile, f) s -> runs (writeAll w f rs) s (fun _ => s) x.
Proof.
  intros H. induction rs as [|r rs IH]; cbn [writeAll]; [apply runs_ret|]. eapply runs_bind; [apply runs_write; exact H|intros []; exact IH].
Qed.
Lemma runs_binary w dir name t s : runs (writeBinary w dir name t) s (fun _ => s) s.
Proof.
  unfold writeBinary. eapply runs_bind; [acq|intros f]. eapply runs_bind; [scp; apply runs_writeAll; left; reflexivity|intros []].
  eapply runs_bind; [acq|intros f2]. scp. apply runs_writeAll. left. reflexivity.
Qed.
Lemma runs_glyphs w junk d enc gl : forall t s x, In (KIconv, d) s -> runs (glyphScan w junk d enc gl t) s (fun _ => s) x.
Proof.
  induction gl as [|g gl IH]; intros t s x Hd; cbn [glyphScan]; [apply runs_ret|].
  past.
  eapply runs_bind; [destruct (126 <? currentGlyph t); [apply runs_call; [intros l; wstep|intros l H; exact H]|apply runs_ret]|intros []].
  eapply runs_bind; [apply runs_lift|intros t']. apply IH. exact Hd.
Qed.
Lemma runs_header w junk name dir enc t first last height s : runs (writeHeader w junk name dir enc t first last height) s (fun _ => s) s.
Proof.
  unfold writeHeader. eapply runs_bind; [acq|intros f]. scp.
  eapply runs_bind; [apply runs_lift|intros text]. eapply runs_bind; [apply runs_write; left; reflexivity|intros []].
  eapply runs_bind; [acq|intros d].
  eapply runs_bind.
  - scp. eapply runs_bind; [apply runs_glyphs; left; reflexivity|intros g]. eapply runs_bind; [apply runs_lift|intros text2].
    apply runs_write. right. left. reflexivity.
  - intros []. eapply runs_bind; [apply runs_lift|intros text2]. apply runs_write. left. reflexivity.
Qed.
Lemma runs_convert w junk argv0 directory j : runs (convert w junk argv0 directory j) [] (fun _ => []) [].
Proof.
  unfold convert. eapply (runs_bind _ _ _ (fun _ => [])).
  - intros l o l' Hb H. apply Ok_inj in H. injection H as <- <-. eexists. split; [reflexivity|].
    assert (E : forall b, steps [] [IsDirectory directory b] []) by (intros b; apply steps_one; apply Works; [reflexivity|reflexivity|discriminate]).
    destruct (wIsDirectory w l) as [b|].
    + split; [apply E|]. split; [constructor; [discriminate|constructor]|constructor].
    + split; [apply E|]. exists [], (IsDirectory directory false), []. split; [reflexivity|]. split; [constructor|]. split; [reflexivity|constructor].
  - intros isDir. eapply runs_bind; [apply runs_described; acq|intros lib]. scp.
    eapply runs_bind; [apply runs_call; [intros l; wstep|intros l H; exact H]|intros []].
    eapply runs_bind; [apply runs_described; acq|intros face]. scp.
    eapply runs_bind; [apply runs_described, runs_throw; [intros b; wstep|discriminate|reflexivity]|intros []].
    eapply runs_bind; [apply runs_table; left; reflexivity|intros t]. destruct (jobBinary j); [apply runs_binary|].
    eapply runs_bind; [apply runs_call; [intros l; wstep|intros l H; exact H]|intros []].
    eapply (runs_bind _ _ _ (fun _ => [(KFace, face); (KLibrary, lib)])); [|intros height; apply runs_header].
    past. apply runs_lift.
Qed.
