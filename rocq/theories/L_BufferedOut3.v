(** Runs of insertions. *)
From Coq Require Import Reals.
From Flocq Require Import Core IEEE754.Binary IEEE754.Bits.
From Verif Require Import Base S_BufferedOut M_BufferedOut L_Decimal L_BufferedOut L_Float L_BufferedOut2.
Open Scope Z_scope.

(** which operation prints which item *)
Inductive prints : iop -> item -> Prop :=
| pr_str s : prints (IStr s) (Text s)
| pr_cstr s : In 0 s -> prints (ICStr s) (CText s)
| pr_char c : prints (IChar c) (Char c)
| pr_int n junk : prints (IInt n junk) (Number n)
| pr_span bs : bytes bs -> prints (ISpan bs) (HexBytes bs).

Lemma prints_step o i s : prints o i -> inside s -> wid s <= 0 -> exists s' t, istep o s = Ok s' /\
  clipped (room s) i t /\ appended s t s' /\ same_format s s'.
Proof.
  intros P Hs Hw. destruct P as [str|str H0|c|n junk|bs Hb]; cbn [istep].
  - destruct (insStr_ok str s Hs) as (s' & E & A & F). eexists s', _. split; [exact E|]. split; [apply cl_text|]. auto.
  - destruct (insCStr_ok str s Hs (or_introl H0)) as (s' & E & A & F). eexists s', _. split; [exact E|]. split; [apply cl_ctext|]. auto.
  - destruct (addChar_ok c s Hs) as (s' & E & A & F). eexists s', _. split; [exact E|]. split; [|split; [exact A|exact F]].
    destruct (Z.leb_spec 1 (room s)); [apply cl_char_fits|apply cl_char_full]; assumption.
  - destruct (Z.le_gt_cases (zlen (decimal n)) (room s)) as [H|H].
    + destruct (insInt_plain n junk s Hs H Hw) as (s' & E & A & F). eexists s', _. split; [exact E|].
      split; [apply cl_num_fits; [apply decimal_text|exact H]|]. auto.
    + destruct (insInt_full n junk s Hs H) as (s' & E & A & F). eexists s', _. split; [exact E|].
      split; [apply cl_num_full with (t := decimal n); [apply decimal_text|exact H]|]. auto.
  - destruct (insSpan_ok bs s Hs Hb) as (s' & E & A & F). eexists s', _. split; [exact E|]. split; [apply cl_hex|]. auto.
Qed.

Lemma prints_run os is : Forall2 prints os is -> forall s, inside s -> wid s <= 0 -> exists s' t, irun os s = Ok s' /\
  clipped_all (room s) is t /\ appended s t s' /\ same_format s s'.
Proof.
  induction 1 as [|o i os is P _ IH]; intros s Hs Hw.
  - exists s, []. split; [reflexivity|]. split; [apply ca_nil|]. split; [destruct s; apply appended_nil; exact Hs|apply same_format_refl].
  - destruct (prints_step o i s P Hs Hw) as (s1 & t & E & C & A & F). cbn [irun]. rewrite E. cbn [bind].
    destruct (appended_inside _ _ _ Hs A) as [Hs1 Hr1].
    destruct (IH s1 Hs1) as (s2 & t2 & E2 & C2 & A2 & F2). { destruct F as (_ & -> & _). exact Hw. }
    exists s2, (t ++ t2). split; [exact E2|]. split; [apply ca_cons; [exact C|rewrite <- Hr1; exact C2]|].
    split; [eapply appended_trans; eassumption|eapply same_format_trans; eassumption].
Qed.

Lemma clipped_fun r i t u : clipped r i t -> clipped r i u -> t = u.
Proof.
  intros H K. inversion H; subst; inversion K; subst; try reflexivity; try lia.
  - eapply dec_text_unique; eassumption.
  - match goal with A : dec_text ?n ?a, B : dec_text ?n ?b |- _ => pose proof (dec_text_unique _ _ _ A B); subst; lia end.
  - match goal with A : dec_text ?n ?a, B : dec_text ?n ?b |- _ => pose proof (dec_text_unique _ _ _ A B); subst; lia end.
Qed.
Lemma clipped_all_fun r is t u : clipped_all r is t -> clipped_all r is u -> t = u.
Proof.
  intros H. revert u. induction H as [|r i is t ts C _ IH]; intros u K; inversion K as [|? ? u1 us C' K']; subst; [reflexivity|].
  pose proof (clipped_fun _ _ _ _ C C'); subst. f_equal. apply IH. assumption.
Qed.

(** the text contributed never exceeds the room *)

(** ** Out-of-bounds accesses *)
Definition well_formed (o : op) : Prop :=
  match o with
  | OI (ICStr str) => In 0 str
  | OI (IByte b) => is_byte b
  | OI (ISpan bs) => bytes bs
  | OFloat v _ => in_int_range v
  | _ => True
  end.
Definition overruns (o : op) (s : bo) : Prop :=
  match o with
  | OI (IByte _) => room s < 2
  | OI (IInt n _) => exists t, dec_text n t /\ zlen t <= room s < wid s
  | _ => False
  end.
(** text appended by, and formatting state after, any insertion *)
Definition next_width (o : op) (s : bo) (w : Z) : Prop :=
  match o with
  | OI (IWidth w') => w = w'
  | OClear => w = 0
  | OI (IInt n _) => exists t, dec_text n t /\ w = if (zlen t <=? room s) && (0 <? wid s) then 0 else wid s
  | _ => w = wid s
  end.
Definition next_prec (o : op) (s : bo) : Z :=
  match o with OI (IPrecision p) => p | OClear => 0 | _ => prec s end.
Definition next_fill (o : op) (s : bo) : Z :=
  match o with OI (IFill c) => c | OClear => 32 | _ => fillc s end.
Definition clears (o : op) : bool := match o with OClear => true | _ => false end.

Lemma step_char o s : inside s -> well_formed o ->
  (overruns o s /\ step o s = UB) \/
  (~ overruns o s /\ exists s', step o s = Ok s' /\ inside s' /\ capacity s' = capacity s /\
     prec s' = next_prec o s /\ fillc s' = next_fill o s /\ next_width o s (wid s') /\
     if clears o then size s' = 0 else exists t, appended s t s').
Proof.
  intros Hs Hw.
  assert (Std : forall r t s', ~ overruns o s -> step o s = r -> clears o = false -> r = Ok s' -> appended s t s' ->
            prec s' = next_prec o s -> fillc s' = next_fill o s -> next_width o s (wid s') ->
            ~ overruns o s /\ exists s', step o s = Ok s' /\ inside s' /\ capacity s' = capacity s /\
     prec s' = next_prec o s /\ fillc s' = next_fill o s /\ next_width o s (wid s') /\
     if clears o then size s' = 0 else exists t, appended s t s').
  { intros r t s' H1 H2 H3 H4 H5 H6 H7 H8. split; [exact H1|]. exists s'. rewrite H2, H3. split; [exact H4|].
    destruct (appended_inside _ _ _ Hs H5) as [Hi _]. split; [exact Hi|]. split; [apply H5|]. eauto 8. }
  destruct o as [o|v junk|].
  - destruct o as [str|str|c|n junk|b|bs|p|w|c]; cbn [well_formed step istep] in *.
    + right. destruct (insStr_ok str s Hs) as (s' & E & A & F1 & F2 & F3). eapply Std; eauto. 
    + right. destruct (insCStr_ok str s Hs (or_introl Hw)) as (s' & E & A & F1 & F2 & F3). eapply Std; eauto.
    + right. destruct (addChar_ok c s Hs) as (s' & E & A & F1 & F2 & F3). eapply Std; eauto.
    + destruct (Z.le_gt_cases (zlen (decimal n)) (room s)) as [H|H].
      * destruct (Z.le_gt_cases (wid s) 0) as [W|W].
        -- right. destruct (insInt_plain n junk s Hs H W) as (s' & E & A & F1 & F2 & F3). eapply Std; eauto.
           ++ intros (t & D & L). pose proof (zlen_nonneg t). lia.
           ++ exists (decimal n). split; [apply decimal_text|]. replace (0 <? wid s) with false by lia. rewrite andb_false_r. exact F2.
        -- destruct (Z.le_gt_cases (wid s) (room s)) as [V|V].
           ++ right. destruct (insInt_width n junk s Hs H ltac:(lia)) as (s' & E & A & F1 & F2 & F3). eapply Std; eauto.
              ** intros (t & D & L). pose proof (zlen_nonneg t). lia.
              ** exists (decimal n). split; [apply decimal_text|]. replace (0 <? wid s) with true by lia.
                 replace (zlen (decimal n) <=? room s) with true by lia. exact F2.
           ++ left. split; [exists (decimal n); split; [apply decimal_text|lia]|]. apply insInt_ub; assumption || lia.
      * right. destruct (insInt_full n junk s Hs H) as (s' & E & A & F1 & F2 & F3). eapply Std; eauto.
        -- intros (t & D & L). pose proof (dec_text_unique _ _ _ D (decimal_text n)). subst. lia.
        -- exists (decimal n). split; [apply decimal_text|]. replace (zlen (decimal n) <=? room s) with false by lia. exact F2.
    + destruct (Z.le_gt_cases 2 (room s)) as [H|H].
      * right. destruct (insByte_ok b s Hs Hw H) as (s' & E & A & F1 & F2 & F3). eapply Std; eauto. cbn [overruns]. lia.
      * left. split; [exact H|]. apply insByte_ub; assumption.
    + right. destruct (insSpan_ok bs s Hs Hw) as (s' & E & A & F1 & F2 & F3). eapply Std; eauto.
    + right. eapply Std; [intros []|reflexivity|reflexivity|reflexivity|apply appended_nil; exact Hs|reflexivity..].
    + right. eapply Std; [intros []|reflexivity|reflexivity|reflexivity|apply appended_nil; exact Hs|reflexivity..].
    + right. eapply Std; [intros []|reflexivity|reflexivity|reflexivity|apply appended_nil; exact Hs|reflexivity..].
  - right. cbn [well_formed] in Hw. destruct (Z.le_gt_cases (zlen (decimal (Ztrunc (R32 v)))) (room s)) as [H|H].
    + destruct (insFloat_fits v junk s Hs Hw H) as (s' & ds & E & (F1 & F2 & F3) & _ & R). cbv zeta in R.
      destruct ((0 <? u32 (prec s)) && (0 <? room s - zlen (decimal (Ztrunc (R32 v))))).
      * destruct R as [A _]. eapply Std; eauto.
      * destruct R as [A _]. eapply Std; eauto.
    + destruct (insFloat_full v junk s Hs Hw H) as (s' & t & E & (F1 & F2 & F3) & A & _). eapply Std; eauto.
  - right. split; [intros []|]. eexists. split; [reflexivity|]. unfold inside, size, capacity in *. cbn. repeat split; lia.
Qed.

Lemma oob_iff o s : inside s -> well_formed o -> (step o s = UB <-> overruns o s).
Proof.
  intros Hs Hw. destruct (step_char o s Hs Hw) as [[H1 H2]|[H1 (s' & E & _)]]; [tauto|]. rewrite E. split; [discriminate|tauto].
Qed.
Lemma step_total o s : inside s -> well_formed o -> step o s = UB \/ exists s', step o s = Ok s' /\ inside s' /\ capacity s' = capacity s.
Proof.
  intros Hs Hw. destruct (step_char o s Hs Hw) as [[H1 H2]|[H1 (s' & E & I & C & _)]]; [left; exact H2|right; eauto].
Qed.
Lemma cstr_ub_iff str s : inside s -> (step (OI (ICStr str)) s = UB <-> ~ In 0 str /\ zlen str <= room s).
Proof.
  intros Hs. cbn [step istep]. destruct (in_dec Z.eq_dec 0 str) as [H|H].
  - destruct (insCStr_ok str s Hs (or_introl H)) as (s' & E & _). rewrite E. split; [discriminate|tauto].
  - destruct (Z.le_gt_cases (zlen str) (room s)) as [L|L].
    + rewrite insCStr_ub; [tauto|exact Hs|]. intros [K|K]; [contradiction|lia].
    + destruct (insCStr_ok str s Hs (or_intror L)) as (s' & E & _). rewrite E. split; [discriminate|lia].
Qed.
Lemma float_ub_iff v junk s : inside s -> (step (OFloat v junk) s = UB <-> ~ in_int_range v).
Proof.
  intros Hs. split.
  - intros H Hv. apply (oob_iff (OFloat v junk) s Hs Hv) in H. exact H.
  - intros H. apply insFloat_ub. exact H.
Qed.

Lemma run_inside os : forall s s', inside s -> Forall well_formed os -> run os s = Ok s' -> inside s' /\ capacity s' = capacity s.
Proof.
  induction os as [|o os IH]; intros s s' Hs Hw E; cbn [run] in E.
  - apply Ok_inj in E. subst. auto.
  - inversion Hw as [|? ? W1 W2]; subst. destruct (step_total o s Hs W1) as [H|(s1 & E1 & I1 & C1)]; [rewrite H in E; discriminate|].
    rewrite E1 in E. cbn [bind] in E. destruct (IH s1 s' I1 W2 E). split; [assumption|congruence].
Qed.
Lemma create_inside b : inside (create b).
Proof. unfold inside, size, capacity, create, clear. cbn [pos mem]. pose proof (zlen_nonneg b). lia. Qed.

(** ** formatting state *)
Lemma step_format o s s' : inside s -> well_formed o -> step o s = Ok s' ->
  prec s' = next_prec o s /\ fillc s' = next_fill o s /\ next_width o s (wid s').
Proof.
  intros Hs Hw E. destruct (step_char o s Hs Hw) as [[_ H]|[_ (s1 & E1 & _ & _ & H1 & H2 & H3 & _)]]; rewrite E in *.
  - discriminate.
  - apply Ok_inj in E1. subst. auto.
Qed.
Definition keeps_prec (o : op) : bool := match o with OI (IPrecision _) | OClear => false | _ => true end.
Definition keeps_fill (o : op) : bool := match o with OI (IFill _) | OClear => false | _ => true end.
Definition keeps_width (o : op) : bool := match o with OI (IWidth _) | OI (IInt _ _) | OClear => false | _ => true end.
Lemma run_format os : forall s s', inside s -> Forall well_formed os -> run os s = Ok s' ->
  (forallb keeps_prec os = true -> prec s' = prec s) /\
  (forallb keeps_fill os = true -> fillc s' = fillc s) /\
  (forallb keeps_width os = true -> wid s' = wid s).
Proof.
  induction os as [|o os IH]; intros s s' Hs Hw E; cbn [run] in E.
  - apply Ok_inj in E. subst. auto.
  - inversion Hw as [|? ? W1 W2]; subst. destruct (step_total o s Hs W1) as [H|(s1 & E1 & I1 & C1)]; [rewrite H in E; discriminate|].
    rewrite E1 in E. cbn [bind] in E. destruct (IH s1 s' I1 W2 E) as (K1 & K2 & K3).
    destruct (step_format o s s1 Hs W1 E1) as (J1 & J2 & J3). cbn [forallb].
    repeat split; intros B; apply andb_true_iff in B; destruct B as [B1 B2].
    + rewrite K1 by exact B2. rewrite J1. destruct o as [[]| |]; try discriminate; reflexivity.
    + rewrite K2 by exact B2. rewrite J2. destruct o as [[]| |]; try discriminate; reflexivity.
    + rewrite K3 by exact B2. destruct o as [[]| |]; try discriminate; exact J3.
Qed.

(** ** fields *)
Lemma padded_in_field w fl t : 0 <= w -> in_field w fl t (padded w fl t).
Proof.
  intros H. split; [apply zlen_padded; exact H|]. unfold padded. split; intros L.
  - destruct (Z.ltb_spec (zlen t) w) as [K|K].
    + exists (repeat fl (Z.to_nat (w - zlen t))). split; [reflexivity|]. apply Forall_forall. intros x Hx. apply repeat_spec in Hx. auto.
    + exists []. split; [|apply Forall_nil]. cbn [app]; apply firstn_all2. unfold zlen in *. lia.
  - replace (zlen t <? w) with false by lia. exists (skipn (Z.to_nat w) t). symmetry. apply firstn_skipn.
Qed.
Lemma int_width n junk s t : inside s -> dec_text n t -> zlen t <= room s -> 0 < wid s <= room s ->
  exists s' out, istep (IInt n junk) s = Ok s' /\ in_field (wid s) (fillc s) t out /\
    asStringView s' = asStringView s ++ out /\ size s' = size s + wid s /\ capacity s' = capacity s /\
    wid s' = 0 /\ fillc s' = fillc s /\ prec s' = prec s.
Proof.
  intros Hs D L W. pose proof (dec_text_unique _ _ _ D (decimal_text n)). subst t.
  destruct (insInt_width n junk s Hs L W) as (s' & E & (A1 & A2 & A3 & A4) & F1 & F2 & F3).
  exists s', (padded (wid s) (fillc s) (decimal n)). split; [exact E|]. split; [apply padded_in_field; lia|].
  rewrite zlen_padded in A2 by lia. auto 8.
Qed.

(** ** data() *)
Lemma data_iff s : inside s -> (data s = asStringView s <-> size s < 65536).
Proof.
  intros Hs. unfold data, asStringView. unfold inside, capacity in Hs.
  assert (B : 0 <= u16 (size s) <= size s) by (unfold u16; pose proof (Z.mod_pos_bound (size s) 65536 ltac:(lia)); pose proof (Z.mod_le (size s) 65536 ltac:(lia) ltac:(lia)); lia).
  split.
  - intros H. apply (f_equal zlen) in H. rewrite !zlen_slice in H by lia.
    unfold u16 in H. pose proof (Z.mod_pos_bound (size s) 65536 ltac:(lia)). lia.
  - intros H. unfold u16. rewrite Z.mod_small by lia. reflexivity.
Qed.
Lemma data_prefix s : inside s -> zlen (data s) = size s mod 65536 /\ exists rest, asStringView s = data s ++ rest.
Proof.
  intros Hs. unfold data, asStringView. unfold inside, capacity in Hs. unfold u16.
  pose proof (Z.mod_pos_bound (size s) 65536 ltac:(lia)). pose proof (Z.mod_le (size s) 65536 ltac:(lia) ltac:(lia)).
  split; [apply zlen_slice; lia|]. exists (slice (mem s) (size s mod 65536) (size s - size s mod 65536)).
  replace (size s) with (size s mod 65536 + (size s - size s mod 65536)) at 1 by lia. rewrite slice_app_split by lia. reflexivity.
Qed.
