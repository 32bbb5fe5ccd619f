(** Lemmas about the command line of the font converter. *)
From Verif Require Import Base S_BufferedOut S_Header S_Pbm S_Options M_BufferedOut M_Pbm M_Packing M_Options L_Decimal L_Pbm.

(** ** getopt *)
Lemma takes_spec c : takesArgument c = true <-> with_argument c.
Proof.
  unfold takesArgument, with_argument. cbn [In]. rewrite !orb_true_iff, !Z.eqb_eq. intuition (subst; auto).
Qed.
Lemma takes_not c : ~ with_argument c -> takesArgument c = false.
Proof. intros H. destruct (takesArgument c) eqn:E; [apply takes_spec in E; contradiction|reflexivity]. Qed.
Definition event_of (p : Z * list Z) : optEvent :=
  if takesArgument (fst p) || isFlag (fst p) then Opt (fst p) (snd p) else Bad.
Lemma cluster_app cs r : plain cs -> 
  cluster (cs ++ r) = (map event_of (letters cs) ++ fst (cluster r), snd (cluster r)).
Proof.
  induction 1 as [|c cs Hc _ IH]; [cbn; destruct (cluster r); reflexivity|].
  cbn [app cluster letters map]. rewrite (takes_not c Hc), IH. unfold event_of at 2. cbn [fst snd].
  rewrite (takes_not c Hc). cbn [orb]. reflexivity.
Qed.
Lemma cluster_plain cs : plain cs -> cluster cs = (map event_of (letters cs), None).
Proof. intros H. rewrite <- (app_nil_r cs) at 1. rewrite cluster_app by exact H. cbn. rewrite app_nil_r. reflexivity. Qed.
Lemma cluster_joined cs c a : plain cs -> with_argument c -> a <> [] ->
  cluster (cs ++ c :: a) = (map event_of (letters cs ++ [(c, a)]), None).
Proof.
  intros H Hc Ha. rewrite cluster_app by exact H. apply takes_spec in Hc. cbn [cluster]. rewrite Hc. destruct a as [|x a]; [congruence|].
  cbn [fst snd]. rewrite map_app. unfold event_of at 3. cbn [map fst snd]. unfold event_of at 2. cbn [fst snd]. rewrite Hc. reflexivity.
Qed.
Lemma cluster_waits cs c : plain cs -> with_argument c -> cluster (cs ++ [c]) = (map event_of (letters cs), Some c).
Proof.
  intros H Hc. rewrite cluster_app by exact H. apply takes_spec in Hc. cbn [cluster]. rewrite Hc. cbn [fst snd]. rewrite app_nil_r. reflexivity.
Qed.
Lemma getopts_option cs args : cs <> [] -> cs <> [45] -> 
  getopts None ((45 :: cs) :: args) = fst (cluster cs) ++ getopts (snd (cluster cs)) args.
Proof.
  intros H0 H1. cbn [getopts]. change (45 =? 45) with true. destruct cs as [|c cs]; [congruence|]. cbn [atEnd negb orb]. rewrite eqbl_neq by exact H1.
  destruct (cluster (c :: cs)). reflexivity.
Qed.
Lemma plain_dash cs c r : plain cs -> with_argument c -> cs ++ c :: r <> [45].
Proof.
  intros _ Hc E. destruct cs as [|x cs]; cbn [app] in E; [|destruct cs; discriminate].
  injection E as -> _. unfold with_argument in Hc. cbn [In] in Hc. intuition discriminate.
Qed.
Lemma nonnil {A} (cs : list A) c r : cs ++ c :: r <> [].
Proof. destruct cs; discriminate. Qed.
Lemma getopts_item i args : item_ok i -> getopts None (written i ++ args) = map event_of (item_settings i) ++ getopts None args.
Proof.
  destruct i as [a|cs|cs c arg|cs c arg]; cbn [item_ok written item_settings app].
  - intros [-> | H]; [reflexivity|]. cbn [getopts map app]. destruct a as [|x a]; [reflexivity|].
    destruct (Z.eq_dec x 45) as [->|Hx]; [exfalso; apply H; eexists; reflexivity|].
    replace (x =? 45) with false by lia. reflexivity.
  - intros (H0 & H1 & Hp). rewrite getopts_option, (cluster_plain cs) by assumption. reflexivity.
  - intros (Hp & Hc & Ha). rewrite getopts_option by (apply plain_dash || apply nonnil; assumption).
    rewrite cluster_joined by assumption. reflexivity.
  - intros (Hp & Hc). rewrite getopts_option by (apply plain_dash || apply nonnil; assumption).
    rewrite cluster_waits by assumption. cbn [fst snd getopts]. rewrite map_app, <- app_assoc. f_equal.
    cbn [map app]. unfold event_of at 1. cbn [fst snd]. apply takes_spec in Hc. rewrite Hc. reflexivity.
Qed.
Definition missing_event (e : ending) : list optEvent := match e with Missing _ _ => [Bad] | _ => [] end.
Lemma getopts_line args items e : command_line args items e ->
  getopts None args = map event_of (settings items e) ++ missing_event e.
Proof.
  intros (Hi & He & ->). unfold settings. induction Hi as [|i items Hi _ IH].
  - cbn [flat_map app]. destruct e as [|ws|cs c]; cbn [ending_words missing_event map app].
    + reflexivity.
    + reflexivity.
    + destruct He as [Hp Hc]. rewrite getopts_option by (apply plain_dash || apply nonnil; assumption).
      rewrite cluster_waits by assumption. reflexivity.
  - cbn [flat_map]. rewrite <- !app_assoc. rewrite getopts_item by exact Hi. rewrite IH, (map_app _ (item_settings i)), <- app_assoc. reflexivity.
Qed.

(** every list of words is a command line *)
Definition with_dec c : {with_argument c} + {~ with_argument c}.
Proof.
  destruct (takesArgument c) eqn:E; [left; apply takes_spec; exact E|right; intros H; apply takes_spec in H; congruence].
Defined.
Lemma split_letters cs : {plain cs} + {exists a c r, cs = a ++ c :: r /\ plain a /\ with_argument c}.
Proof.
  induction cs as [|x cs IH]; [left; constructor|]. destruct (with_dec x) as [Hx|Hx].
  - right. exists [], x, cs. repeat split; [constructor|exact Hx].
  - destruct IH as [IH|IH]; [left; constructor; assumption|]. right. destruct IH as (a & c & r & -> & Ha & Hc).
    exists (x :: a), c, r. repeat split; [constructor; assumption|exact Hc].
Qed.
Lemma command_line_cons i args items e : item_ok i -> command_line args items e -> command_line (written i ++ args) (i :: items) e.
Proof. intros Hi (H1 & H2 & ->). split; [constructor; assumption|]. split; [exact H2|]. cbn [flat_map]. apply app_assoc. Qed.
Lemma command_line_exists : forall n args, (length args <= n)%nat -> exists items e, command_line args items e.
Proof.
  induction n as [|n IH]; intros args Hn.
  - destruct args; [|cbn in Hn; lia]. exists [], AllRead. repeat split; constructor.
  - destruct args as [|a args]; [exists [], AllRead; repeat split; constructor|]. cbn [length] in Hn.
    assert (HO : forall i, item_ok i -> written i = [a] -> exists items e, command_line (a :: args) items e).
    { intros i Hi E. destruct (IH args ltac:(lia)) as (items & e & H). exists (i :: items), e.
      change (a :: args) with ([a] ++ args). rewrite <- E. apply command_line_cons; assumption. }
    destruct a as [|x cs]; [apply (HO (Operand [])); [right; intros [r E]; discriminate|reflexivity]|].
    destruct (Z.eq_dec x 45) as [->|Hx]; [|apply (HO (Operand (x :: cs))); [right; intros [r E]; congruence|reflexivity]].
    destruct cs as [|c0 cs0]; [apply (HO (Operand [45])); [left; reflexivity|reflexivity]|]. set (cs := c0 :: cs0) in *.
    destruct (list_eq_dec Z.eq_dec cs [45]) as [E|E].
    { rewrite E. exists [], (Dashes args). repeat split; constructor. }
    destruct (split_letters cs) as [Hp|(p & c & r & Ecs & Hp & Hc)].
    { apply (HO (Letters cs)); [|reflexivity]. repeat split; [discriminate|exact E|exact Hp]. }
    destruct r as [|y r].
    + destruct args as [|arg args].
      * exists [], (Missing p c). split; [constructor|]. split; [split; assumption|]. rewrite Ecs. reflexivity.
      * cbn [length] in Hn. destruct (IH args ltac:(lia)) as (items & e & H). exists (Apart p c arg :: items), e.
        rewrite Ecs. change ((45 :: p ++ [c]) :: arg :: args) with (written (Apart p c arg) ++ args).
        apply command_line_cons; [split; assumption|exact H].
    + apply (HO (Joined p c (y :: r))); [repeat split; [assumption|assumption|discriminate]|]. cbn [written]. rewrite <- Ecs. reflexivity.
Qed.

(** ** stoi *)
Lemma skip_split t : exists s, Forall space s /\ t = s ++ skipSpace t /\ match skipSpace t with [] => True | c :: _ => isSpace c = false end.
Proof.
  induction t as [|c t (s & Hs & E & Hn)]; [exists []; repeat split; constructor|]. cbn [skipSpace]. destruct (isSpace c) eqn:Hc.
  - exists (c :: s). split; [constructor; [apply isSpace_spec; exact Hc|exact Hs]|]. split; [cbn [app]; f_equal; exact E|exact Hn].
  - exists []. repeat split; [constructor|exact Hc].
Qed.
Lemma span_split f t a b : span f t = (a, b) ->
  t = a ++ b /\ Forall (fun c => f c = true) a /\ match b with [] => True | c :: _ => f c = false end.
Proof.
  revert a b. induction t as [|c t IH]; intros a b E; cbn [span] in E.
  - injection E as <- <-. repeat split; constructor.
  - destruct (f c) eqn:Hc.
    + destruct (span f t) as [a' b'] eqn:Es. injection E as <- <-. destruct (IH _ _ eq_refl) as (-> & Ha & Hb).
      repeat split; [constructor; assumption|exact Hb].
    + injection E as <- <-. repeat split; [constructor|exact Hc].
Qed.
Lemma isDigit_spec c : isDigit c = true <-> is_digit c.
Proof. unfold isDigit, is_digit. lia. Qed.
Lemma isDigit_not c : isDigit c = false <-> ~ is_digit c.
Proof. rewrite <- isDigit_spec. destruct (isDigit c); split; congruence. Qed.

Lemma stoi_spec a n : stoi a = Some n <-> reads_int a n.
Proof.
  split.
  - intros E. unfold stoi in E. destruct (skip_split a) as (s & Hs & Ea & _).
    assert (HS : forall neg t sign, skipSpace a = sign ++ t ->
       (neg = false /\ (sign = [] \/ sign = [43]) \/ neg = true /\ sign = [45]) ->
       (let '(ds, _) := span isDigit t in if atEnd ds then None else
         let v := if neg : bool then - digitsValue ds else digitsValue ds in if in_int v then Some v else None) = Some n -> reads_int a n).
    { intros neg t sign Et Hsg Ev. destruct (span isDigit t) as [ds r] eqn:Es. apply span_split in Es. destruct Es as (-> & Hd & Hr).
      destruct (atEnd ds) eqn:Hne; [discriminate|]. cbv zeta in Ev.
      destruct (in_int (if neg then - digitsValue ds else digitsValue ds)) eqn:Hi; [|discriminate]. injection Ev as <-.
      exists s, sign, ds, r. split; [rewrite Ea, Et; reflexivity|]. split; [exact Hs|].
      assert (EV : digitsValue ds = horner 0 ds) by (unfold digitsValue; apply horner_value). rewrite EV in *.
      split; [destruct Hsg as [[-> [-> | ->]]|[-> ->]]; auto|].
      split; [destruct ds; [discriminate|discriminate]|].
      split; [eapply Forall_impl; [|exact Hd]; intros c Hc; apply isDigit_spec; exact Hc|].
      split; [destruct r as [|c r]; [exact I|apply isDigit_not; exact Hr]|]. apply in_int_true in Hi. exact Hi. }
    destruct (skipSpace a) as [|c t].
    + apply (HS false [] []); auto.
    + destruct (Z.eqb_spec c 45) as [->|H45]; [apply (HS true t [45]); auto|].
      destruct (Z.eqb_spec c 43) as [->|H43]; [apply (HS false t [43]); auto|]. apply (HS false (c :: t) []); auto.
  - intros (s & sign & ds & r & -> & Hs & Hsg & Hne & Hd & Hr & Hn). unfold stoi. rewrite skip_spaces by exact Hs.
    assert (Hsp : span isDigit (ds ++ r) = (ds, r)).
    { apply span_all; [apply digits_dig; exact Hd|]. destruct r as [|c r]; [exact I|apply isDigit_not; exact Hr]. }
    assert (Hv : digitsValue ds = horner 0 ds) by (unfold digitsValue; apply horner_value).
    assert (Hi : in_int n = true) by (apply in_int_true; exact Hn).
    destruct ds as [|d ds]; [congruence|]. inversion Hd as [|? ? Hd0 _]; subst. unfold is_digit in Hd0.
    destruct Hsg as [[-> E]|[[-> E]|[-> E]]]; cbn [app].
    + rewrite skip_none by (unfold isSpace; lia). replace (d =? 45) with false by lia. replace (d =? 43) with false by lia.
      change (d :: ds ++ r) with ((d :: ds) ++ r). rewrite Hsp. change (atEnd (d :: ds)) with false. cbv iota zeta. rewrite Hv, <- E, Hi. reflexivity.
    + rewrite skip_none by reflexivity. change (43 =? 45) with false. change (43 =? 43) with true. cbv iota.
      change (d :: ds ++ r) with ((d :: ds) ++ r). rewrite Hsp. change (atEnd (d :: ds)) with false. cbv iota zeta. rewrite Hv, <- E, Hi. reflexivity.
    + rewrite skip_none by reflexivity. change (45 =? 45) with true. cbv iota.
      change (d :: ds ++ r) with ((d :: ds) ++ r). rewrite Hsp. change (atEnd (d :: ds)) with false. cbv iota zeta. rewrite Hv, <- E, Hi. reflexivity.
Qed.
Lemma stoi_none a : stoi a = None <-> ~ exists n, reads_int a n.
Proof.
  split.
  - intros E [n H]. apply stoi_spec in H. congruence.
  - intros H. destruct (stoi a) as [n|] eqn:E; [|reflexivity]. exfalso. apply H. exists n. apply stoi_spec. exact E.
Qed.

(** ** The settings *)
Definition lastArg (c : Z) (s : list (Z * list Z)) (d : list Z) : list Z :=
  fold_left (fun acc p => if fst p =? c then snd p else acc) s d.
Definition lastNum (c : Z) (s : list (Z * list Z)) (d : Z) : Z :=
  fold_left (fun acc p => if fst p =? c then match stoi (snd p) with Some n => n | None => acc end else acc) s d.
Definition isGiven (c : Z) (s : list (Z * list Z)) : bool := existsb (fun p => fst p =? c) s.
Definition other (c : Z) : bool := negb (takesArgument c) && negb (c =? 98).
Definition badNumber (s : list (Z * list Z)) : bool :=
  existsb (fun p => ((fst p =? 100) || (fst p =? 115)) && match stoi (snd p) with None => true | _ => false end) s.
Definition applied (s : list (Z * list Z)) (c : config) : config :=
  mkConfig (lastArg 102 s (fontFileName c)) (lastArg 111 s (outputDirectory c)) (lastArg 101 s (encodingName c))
    (lastNum 100 s (dpi c)) (lastNum 115 s (fontSize c)) (lastCode c) (binary c || isGiven 98 s)
    (printHelp c || existsb (fun p => other (fst p)) s).
Lemma setOption_event p c : setOption (event_of p) c = if badNumber [p] then None else Some (applied [p] c).
Proof.
  destruct p as [o a]. unfold event_of, badNumber, applied, lastArg, lastNum, isGiven, other, takesArgument, isFlag. cbn [fst snd existsb fold_left].
  rewrite !orb_false_r.
  destruct (Z.eqb_spec o 102) as [->|]; [cbn; rewrite !orb_false_r; destruct c; reflexivity|].
  destruct (Z.eqb_spec o 111) as [->|]; [cbn; rewrite !orb_false_r; destruct c; reflexivity|].
  destruct (Z.eqb_spec o 100) as [->|]; [cbn; rewrite !orb_false_r; destruct c, (stoi a); reflexivity|].
  destruct (Z.eqb_spec o 115) as [->|]; [cbn; rewrite !orb_false_r; destruct c, (stoi a); reflexivity|].
  destruct (Z.eqb_spec o 101) as [->|]; [cbn; rewrite !orb_false_r; destruct c; reflexivity|].
  destruct (Z.eqb_spec o 98) as [->|]; [cbn; rewrite !orb_false_r, !orb_true_r; destruct c; reflexivity|].
  cbn [orb andb negb]. destruct (Z.eqb_spec o 104) as [->|]; cbn [setOption].
  - cbn. rewrite !orb_false_r, !orb_true_r. destruct c; reflexivity.
  - rewrite !orb_false_r, !orb_true_r. destruct c; reflexivity.
Qed.
Lemma applied_cons p s c : applied (p :: s) c = applied s (applied [p] c).
Proof.
  unfold applied, lastArg, lastNum, isGiven. cbn [fold_left existsb fontFileName outputDirectory encodingName dpi fontSize lastCode binary printHelp].
  rewrite !orb_false_r, !orb_assoc. reflexivity.
Qed.
Lemma setOptions_events s : forall c es, setOptions (map event_of s ++ es) c =
  if badNumber s then None else setOptions es (applied s c).
Proof.
  induction s as [|p s IH]; intros c es.
  - cbn [map app]. unfold badNumber. cbn [existsb]. unfold applied, lastArg, lastNum, isGiven. cbn [fold_left existsb]. rewrite !orb_false_r.
    destruct c; reflexivity.
  - cbn [map app setOptions]. rewrite setOption_event, (applied_cons p s c).
    change (badNumber (p :: s)) with ((((fst p =? 100) || (fst p =? 115)) && match stoi (snd p) with None => true | _ => false end) || badNumber s).
    unfold badNumber at 1. cbn [existsb]. rewrite orb_false_r.
    destruct (((fst p =? 100) || (fst p =? 115)) && match stoi (snd p) with None => true | _ => false end); [reflexivity|]. cbn [orb]. apply IH.
Qed.

Lemma lastArg_snoc c s p d : lastArg c (s ++ [p]) d = if fst p =? c then snd p else lastArg c s d.
Proof. unfold lastArg. rewrite fold_left_app. reflexivity. Qed.
Lemma last_given_arg c s d v : last_given c s d v <-> v = lastArg c s d.
Proof.
  revert v. induction s as [|p s IH] using rev_ind; intros v.
  - split.
    + intros [([|? ?] & s2 & E & _)|[_ ->]]; [discriminate|discriminate|reflexivity].
    + intros ->. right. split; [intros a []|reflexivity].
  - rewrite lastArg_snoc. destruct p as [c' a']. cbn [fst snd]. destruct (Z.eqb_spec c' c) as [->|Hc].
    + split.
      * intros [(s1 & s2 & E & H)|[H _]].
        -- destruct s2 as [|q s2] using rev_ind.
           ++ apply app_inj_tail in E. destruct E as [_ E]. injection E as ->. reflexivity.
           ++ rewrite app_comm_cons, app_assoc in E. apply app_inj_tail in E. destruct E as [_ <-]. exfalso.
              apply (H a'). apply in_or_app. right. left. reflexivity.
        -- exfalso. apply (H a'). apply in_or_app. right. left. reflexivity.
      * intros ->. left. exists s, []. split; [reflexivity|intros a []].
    + rewrite <- IH. split.
      * intros [(s1 & s2 & E & H)|[H ->]].
        -- destruct s2 as [|q s2] using rev_ind.
           ++ apply app_inj_tail in E. destruct E as [_ E]. congruence.
           ++ clear IHs2. rewrite app_comm_cons, app_assoc in E. apply app_inj_tail in E. destruct E as [-> <-]. left. exists s1, s2.
              split; [reflexivity|]. intros a Ha. apply (H a). apply in_or_app. left. exact Ha.
        -- right. split; [|reflexivity]. intros a Ha. apply (H a). apply in_or_app. left. exact Ha.
      * intros [(s1 & s2 & -> & H)|[H ->]].
        -- left. exists s1, (s2 ++ [(c', a')]). split; [rewrite <- app_assoc; reflexivity|].
           intros a Ha. apply in_app_or in Ha. destruct Ha as [Ha|[Ha|[]]]; [apply (H a Ha)|congruence].
        -- right. split; [|reflexivity]. intros a Ha. apply in_app_or in Ha. destruct Ha as [Ha|[Ha|[]]]; [apply (H a Ha)|congruence].
Qed.
Lemma isGiven_spec c s : isGiven c s = true <-> given c s.
Proof.
  unfold isGiven, given. rewrite existsb_exists. split.
  - intros ([c' a] & H & E). apply Z.eqb_eq in E. cbn in E. subst. exists a. exact H.
  - intros [a H]. exists (c, a). split; [exact H|apply Z.eqb_refl].
Qed.
Lemma isGiven_not c s : isGiven c s = false <-> ~ given c s.
Proof. rewrite <- isGiven_spec. destruct (isGiven c s); split; congruence. Qed.
Lemma badNumber_spec s : badNumber s = true <-> exists c a, In (c, a) s /\ (c = 100 \/ c = 115) /\ ~ exists n, reads_int a n.
Proof.
  unfold badNumber. rewrite existsb_exists. split.
  - intros ([c a] & H & E). cbn [fst snd] in E. apply andb_true_iff in E. destruct E as [E1 E2]. exists c, a. split; [exact H|].
    split; [lia|]. apply stoi_none. destruct (stoi a); [discriminate|reflexivity].
  - intros (c & a & H & Hc & Hn). exists (c, a). split; [exact H|]. cbn [fst snd]. apply stoi_none in Hn. rewrite Hn.
    apply andb_true_iff. split; [lia|reflexivity].
Qed.
Lemma lastNum_spec c s d n : (c = 100 \/ c = 115) -> badNumber s = false -> (last_number c s d n <-> n = lastNum c s d).
Proof.
  intros Hc. assert (X : forall s, badNumber s = false -> if isGiven c s then stoi (lastArg c s []) = Some (lastNum c s d) else lastNum c s d = d).
  { clear s. induction s as [|p s IH] using rev_ind; [reflexivity|]. intros Hb.
    unfold badNumber in Hb. rewrite existsb_app in Hb. apply orb_false_iff in Hb. destruct Hb as [Hb1 Hb2]. specialize (IH Hb1).
    rewrite lastArg_snoc. unfold isGiven, lastNum in *. rewrite existsb_app, fold_left_app. cbn [existsb fold_left] in *.
    rewrite orb_false_r in *. destruct (Z.eqb_spec (fst p) c) as [E|E].
    - rewrite orb_true_r. destruct (stoi (snd p)) as [k|]; [reflexivity|]. rewrite andb_true_r in Hb2. lia.
    - rewrite orb_false_r. exact IH. }
  intros Hb. specialize (X s Hb). unfold last_number. destruct (isGiven c s) eqn:Eg.
  - split.
    + intros [(a & Ha & _ & Hr)|[H _]]; [|apply isGiven_not in H; congruence]. apply last_given_arg in Ha. subst a. apply stoi_spec in Hr. congruence.
    + intros ->. left. exists (lastArg c s []). split; [apply last_given_arg; reflexivity|]. split; [apply isGiven_spec; exact Eg|]. apply stoi_spec. exact X.
  - split.
    + intros [(a & _ & H & _)|[_ ->]]; [apply isGiven_spec in H; congruence|]. congruence.
    + intros ->. right. split; [apply isGiven_not; exact Eg|exact X].
Qed.
Lemma help_spec s e : existsb (fun p => other (fst p)) s || match e with Missing _ _ => true | _ => false end = true <-> wants_help s e.
Proof.
  unfold wants_help. rewrite orb_true_iff, existsb_exists. split.
  - intros [([c a] & H & E)|E].
    + left. exists c. unfold other in E. cbn [fst] in E. apply andb_true_iff in E. destruct E as [E1 E2].
      split; [exists a; exact H|]. split; [|lia]. intros W. apply takes_spec in W. rewrite W in E1. discriminate.
    + right. destruct e as [| |cs c]; try discriminate. exists cs, c. reflexivity.
  - intros [(c & [a H] & Hw & Hb)|(cs & c & ->)]; [left|right; reflexivity].
    exists (c, a). split; [exact H|]. unfold other. cbn [fst]. rewrite (takes_not c Hw). cbn [negb andb]. lia.
Qed.

(** ** The encoding *)
Definition odd_char (sg : bool) (c : Z) : bool := sg && (128 <=? c) && negb (c =? 255).
Definition upChar (c : Z) : Z := if (97 <=? c) && (c <=? 122) then c - 32 else c.
Lemma toUppers_spec sg s : toUppers sg s = if existsb (odd_char sg) s then UB else Ok (map upChar s).
Proof.
  induction s as [|c s IH]; [reflexivity|]. cbn [toUppers existsb map]. unfold toUpper. fold (odd_char sg c).
  destruct (odd_char sg c); [reflexivity|]. cbn [bind orb]. rewrite IH. destruct (existsb (odd_char sg) s); reflexivity.
Qed.
Lemma upper_spec a b : upper_case a b <-> b = map upChar a.
Proof.
  unfold upper_case. split.
  - induction 1 as [|x y a b H _ IH]; [reflexivity|]. cbn [map]. rewrite IH. f_equal. unfold upChar.
    destruct H as [[H ->]|[H ->]]; [replace ((97 <=? x) && (x <=? 122)) with true by lia; reflexivity|].
    replace ((97 <=? x) && (x <=? 122)) with false by lia. reflexivity.
  - intros ->. induction a as [|x a IH]; [constructor|]. cbn [map]. constructor; [|exact IH]. unfold upChar.
    destruct ((97 <=? x) && (x <=? 122)) eqn:E; [left; split; [lia|reflexivity]|right; split; [lia|reflexivity]].
Qed.
Lemma ascii_spec a : eqbl (map upChar a) asciiName = true <-> says_ascii a.
Proof. rewrite eqbl_spec. unfold says_ascii. rewrite upper_spec. unfold asciiName. split; congruence. Qed.

(** ** The name *)
Lemma fileName_spec s : forall cur, ~ In 47 cur -> exists dir base, cur ++ s = dir ++ base /\ (dir = [] \/ exists d, dir = d ++ [47]) /\ ~ In 47 base /\ fileName cur s = base.
Proof.
  induction s as [|c s IH]; intros cur Hc.
  - exists [], cur. rewrite app_nil_r. repeat split; auto.
  - cbn [fileName]. destruct (Z.eqb_spec c 47) as [->|Hn].
    + destruct (IH [] (fun X => X)) as (dir & base & E & Hd & Hb & Ef). cbn [app] in E. exists (cur ++ 47 :: dir), base.
      split; [rewrite E, <- app_assoc; reflexivity|]. split; [|split; assumption]. right.
      destruct Hd as [-> | [d ->]]; [exists cur; reflexivity|]. exists (cur ++ 47 :: d). rewrite <- app_assoc. reflexivity.
    + destruct (IH (cur ++ [c])) as (dir & base & E & Hd & Hb & Ef).
      { intros X. apply in_app_or in X. destruct X as [X|[X|[]]]; [auto|congruence]. }
      exists dir, base. split; [rewrite <- E, <- app_assoc; reflexivity|]. auto.
Qed.
Lemma fileName_unique dir base : (dir = [] \/ exists d, dir = d ++ [47]) -> ~ In 47 base -> forall cur, ~ In 47 cur \/ dir <> [] -> fileName cur (dir ++ base) = if atEnd dir then cur ++ base else base.
Proof.
  intros Hd Hb.
  assert (X : forall cur, fileName cur base = cur ++ base).
  { induction base as [|c base IH]; intros cur; [rewrite app_nil_r; reflexivity|]. cbn [fileName].
    replace (c =? 47) with false by (symmetry; apply Z.eqb_neq; intros ->; apply Hb; left; reflexivity).
    rewrite IH by (intros Y; apply Hb; right; exact Y). rewrite <- app_assoc. reflexivity. }
  destruct Hd as [-> | [d ->]]; intros cur _; [apply X|]. replace (atEnd (d ++ [47])) with false by (destruct d; reflexivity).
  rewrite <- app_assoc. revert cur. induction d as [|c d IH]; intros cur.
  - cbn [app fileName]. change (47 =? 47) with true. cbv iota. apply (X []).
  - cbn [app fileName]. destruct (c =? 47); apply IH.
Qed.
Lemma beforeDot_none s : forall cur, ~ In 46 s -> beforeDot cur s = None.
Proof.
  induction s as [|c s IH]; intros cur H; [reflexivity|]. cbn [beforeDot]. rewrite IH by (intros X; apply H; right; exact X).
  replace (c =? 46) with false by (symmetry; apply Z.eqb_neq; intros ->; apply H; left; reflexivity). reflexivity.
Qed.
Lemma beforeDot_some a ext : forall cur, ~ In 46 ext -> beforeDot cur (a ++ 46 :: ext) = Some (cur ++ a).
Proof.
  induction a as [|c a IH]; intros cur H.
  - cbn [app beforeDot]. rewrite beforeDot_none by exact H. change (46 =? 46) with true. cbv iota. rewrite app_nil_r. reflexivity.
  - cbn [app beforeDot]. rewrite IH by exact H. rewrite <- app_assoc. reflexivity.
Qed.
Lemma last_dot s : ~ In 46 s \/ exists a ext, s = a ++ 46 :: ext /\ ~ In 46 ext.
Proof.
  induction s as [|c s IH]; [left; intros []|]. destruct IH as [H|(a & ext & -> & H)].
  - destruct (Z.eq_dec c 46) as [->|Hc]; [right; exists [], s; auto|]. left. intros [X|X]; auto.
  - right. exists (c :: a), ext. auto.
Qed.
Lemma stem_spec path s : stem_of path s <-> s = stripExtension (fileName [] path).
Proof.
  split.
  - intros (dir & base & -> & Hd & Hb & H). assert (E : fileName [] (dir ++ base) = base).
    { rewrite fileName_unique by (auto; left; intros []). destruct (atEnd dir); reflexivity. }
    rewrite E. clear E. unfold stripExtension. destruct H as [(ext & -> & He & Hs & Hb2)|[-> H]].
    + rewrite (eqbl_neq _ [46; 46]) by exact Hb2. rewrite (eqbl_neq _ [46]) by (destruct s as [|? [|? ?]]; [congruence|discriminate|discriminate]).
      cbn [orb]. rewrite beforeDot_some by exact He. cbn [app]. destruct s; [congruence|reflexivity].
    + destruct H as [H|[->|(ext & -> & H)]].
      * rewrite beforeDot_none by exact H. destruct (eqbl s [46] || eqbl s [46; 46]); reflexivity.
      * reflexivity.
      * change (46 :: ext) with ([] ++ 46 :: ext). rewrite beforeDot_some by exact H. cbn [app]. destruct (eqbl _ _ || _); reflexivity.
  - intros ->. destruct (fileName_spec path [] (fun X => X)) as (dir & base & E & Hd & Hb & Ef). cbn [app] in E. rewrite Ef.
    exists dir, base. split; [exact E|]. split; [exact Hd|]. split; [exact Hb|]. unfold stripExtension.
    destruct (eqbl base [46; 46]) eqn:E2.
    { apply eqbl_spec in E2. subst base. rewrite orb_true_r. right. auto. }
    assert (N2 : base <> [46; 46]) by (intros X; rewrite X in E2; discriminate).
    destruct (last_dot base) as [H|(a & ext & -> & H)].
    + rewrite beforeDot_none by exact H. right. destruct (eqbl base [46] || false); auto.
    + rewrite beforeDot_some by exact H. cbn [app]. destruct a as [|x a].
      * right. destruct (eqbl _ _ || _); (split; [reflexivity|]); right; right; exists ext; auto.
      * left. exists ext. rewrite (eqbl_neq _ [46]) by (destruct a; discriminate). cbn [orb]. repeat split; [exact H|discriminate|exact N2].
Qed.

Lemma word_digits ds : Forall is_digit ds -> forallb word_char ds = true.
Proof.
  intros H. apply forallb_forall. rewrite Forall_forall in H. intros c Hc. specialize (H c Hc). unfold is_digit in H.
  assert (c = 48 \/ c = 49 \/ c = 50 \/ c = 51 \/ c = 52 \/ c = 53 \/ c = 54 \/ c = 55 \/ c = 56 \/ c = 57) as X by lia.
  repeat destruct X as [-> | X]; try subst c; reflexivity.
Qed.
