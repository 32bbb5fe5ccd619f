(** Property theorems C12-C18 (BufferedOut). *)
From Coq Require Import Reals.
From Flocq Require Import Core IEEE754.Binary IEEE754.Bits.
From Verif Require Import Base S_BufferedOut M_BufferedOut L_Decimal L_BufferedOut L_Float L_BufferedOut2 L_BufferedOut3 L_SerialOut.
Open Scope Z_scope.

(** C12.  [prints o i] pairs an insertion with what it prints, [clipped_all] is the specification of
    the clipped text; it determines the text (second theorem). *)
Theorem C12_text : forall os items s, Forall2 prints os items -> 0 <= size s <= capacity s -> wid s <= 0 ->
  exists s' t, irun os s = Ok s' /\ clipped_all (capacity s - size s) items t /\
    asStringView s' = asStringView s ++ t /\ capacity s' = capacity s /\ size s' = size s + zlen t /\
    size s' <= capacity s'.
Proof.
  intros os items s P Hs Hw. destruct (prints_run os items P s Hs Hw) as (s' & t & E & C & (A1 & A2 & A3 & A4) & _).
  exists s', t. auto 8.
Qed.
Print Assumptions C12_text.
Theorem C12_text_determined : forall r items t u, clipped_all r items t -> clipped_all r items u -> t = u.
Proof. exact clipped_all_fun. Qed.
Print Assumptions C12_text_determined.
(** the same for the whole buffer: nothing before the old position changes, whatever is inserted *)
Theorem C12_prefix_kept : forall o s s', 0 <= size s <= capacity s -> well_formed o -> o <> OClear -> step o s = Ok s' ->
  exists t, asStringView s' = asStringView s ++ t /\ capacity s' = capacity s /\ size s' = size s + zlen t /\ size s' <= capacity s'.
Proof.
  intros o s s' Hs Hw Hn E. destruct (step_char o s Hs Hw) as [[_ H]|[_ (s1 & E1 & _ & _ & _ & _ & _ & R)]]; rewrite E in *; [discriminate|].
  apply Ok_inj in E1. subst s1. destruct o; cbn [clears] in R; try congruence; destruct R as (t & A1 & A2 & A3 & A4); eauto 8.
Qed.
Print Assumptions C12_prefix_kept.

Example C12_run :
  let os := [ICStr [72;105;0]; IChar 33; IInt (-7) []; ISpan [171; 5]; IInt 123 [9;9]; IStr [88;89;90]] in
  let items := [CText [72;105;0]; Char 33; Number (-7); HexBytes [171; 5]; Number 123; Text [88;89;90]] in
  Forall2 prints os items /\
  match irun os (create (repeat 0 11)) with
  | Ok s => asStringView s = [72;105;33;45;55;65;66;48;53;88;89] (* Hi!-7AB05XY *)
  | _ => False
  end.
Proof.
  split; [|vm_compute; reflexivity].
  repeat (constructor; [constructor; try (cbn; tauto); try (unfold bytes, is_byte; repeat (apply Forall_cons; [lia|]); apply Forall_nil)|]).
  constructor.
Qed.

(** C13 *)
Theorem C13_overrun_iff : forall o s, 0 <= size s <= capacity s -> well_formed o ->
  (step o s = UB <->
   (exists b, o = OI (IByte b) /\ capacity s - size s < 2) \/
   (exists n junk t, o = OI (IInt n junk) /\ dec_text n t /\ zlen t <= capacity s - size s < wid s)).
Proof.
  intros o s Hs Hw. rewrite (oob_iff o s Hs Hw). unfold overruns, room. split.
  - destruct o as [[]| |]; try contradiction; intros H; [|left; eauto].
    right. destruct H as (t & H1 & H2). eauto 8.
  - intros [(b & -> & H)|(n & junk & t & -> & H1 & H2)]; [exact H|]. exists t. auto.
Qed.
Print Assumptions C13_overrun_iff.
Theorem C13_otherwise_inside : forall o s, 0 <= size s <= capacity s -> well_formed o -> step o s <> UB ->
  exists s', step o s = Ok s' /\ 0 <= size s' <= capacity s' /\ capacity s' = capacity s.
Proof.
  intros o s Hs Hw H. destruct (step_total o s Hs Hw) as [K|(s' & E & I & C)]; [contradiction|]. exists s'. auto.
Qed.
Print Assumptions C13_otherwise_inside.
(** the excluded argument values: an unterminated C string, a float outside the range of int *)
Theorem C13_cstring_iff : forall str s, 0 <= size s <= capacity s ->
  (step (OI (ICStr str)) s = UB <-> ~ In 0 str /\ zlen str <= capacity s - size s).
Proof. exact cstr_ub_iff. Qed.
Print Assumptions C13_cstring_iff.
Theorem C13_float_iff : forall v junk s, 0 <= size s <= capacity s ->
  (step (OFloat v junk) s = UB <->
   ~ (is_finite 24 128 v = true /\ (-2147483649 < B2R 24 128 v < 2147483648)%R)).
Proof. exact float_ub_iff. Qed.
Print Assumptions C13_float_iff.
Example C13_runs :
  step (OI (IByte 171)) (create [0]) = UB /\
  irun [IWidth 5; IInt 12 []] (create (repeat 0 4)) = UB /\
  step (OI (ISpan [171])) (create [0]) = Ok (create [0]).
Proof. vm_compute. repeat split. Qed.
Example C13_float_run : step (OFloat (b32_of_bits 0x7F800000) []) (create (repeat 0 8)) = UB. (* +infinity *)
Proof. vm_compute. reflexivity. Qed.

(** C14 *)
Theorem C14_width : forall n junk s t, 0 <= size s <= capacity s -> dec_text n t ->
  zlen t <= capacity s - size s -> 0 < wid s <= capacity s - size s ->
  exists s' out, istep (IInt n junk) s = Ok s' /\ in_field (wid s) (fillc s) t out /\
    asStringView s' = asStringView s ++ out /\ size s' = size s + wid s /\ capacity s' = capacity s /\
    wid s' = 0 /\ fillc s' = fillc s /\ prec s' = prec s.
Proof. exact int_width. Qed.
Print Assumptions C14_width.
(** so a width can lose digits *)
Theorem C14_width_keeps_digits_refuted : exists n w s', irun [IWidth w; IInt n []] (create (repeat 0 16)) = Ok s' /\
  0 < w /\ dec_text n [49;50;51;52] /\ asStringView s' = [49;50].
Proof. exists 1234, 2. eexists. split; [vm_compute; reflexivity|]. split; [reflexivity|]. split; [exact (decimal_text 1234)|reflexivity]. Qed.
Print Assumptions C14_width_keeps_digits_refuted.
Example C14_run : match irun [IFill 48; IWidth 5; IInt (-42) []] (create (repeat 0 16)) with
  | Ok s => asStringView s = [48;48;45;52;50] (* 00-42 *) | _ => False end.
Proof. reflexivity. Qed.

(** C15 *)
Theorem C15_canonical : forall n junk s, 0 <= size s -> size s + 20 <= capacity s -> wid s <= 0 -> - 2 ^ 63 <= n < 2 ^ 64 ->
  exists s' t, istep (IInt n junk) s = Ok s' /\ asStringView s' = asStringView s ++ t /\
    dec_text n t /\ 1 <= zlen t <= 20 /\
    (- 2 ^ 31 <= n < 2 ^ 32 -> zlen t <= 11 /\ (0 <= n -> zlen t <= 10)).
Proof.
  intros n junk s H1 H2 Hw B. pose proof (decimal_text n) as D. pose proof (dec_text_len_bound _ _ D B) as L.
  destruct (insInt_plain n junk s) as (s' & E & (A1 & _) & _); [unfold inside; lia|unfold room; lia|exact Hw|].
  exists s', (decimal n). split; [exact E|]. split; [exact A1|]. split; [exact D|]. split; [split; [apply (dec_text_len n); exact D|exact L]|].
  apply dec_text_len_int. exact D.
Qed.
Print Assumptions C15_canonical.
Theorem C15_text_unique : forall n t u, dec_text n t -> dec_text n u -> t = u.
Proof. exact dec_text_unique. Qed.
Print Assumptions C15_text_unique.
Example C15_run : match irun [IInt (-9223372036854775808) []] (create (repeat 0 20)) with
  | Ok s => asStringView s = [45;57;50;50;51;51;55;50;48;51;54;56;53;52;55;55;53;56;48;56] | _ => False end.
Proof. vm_compute. reflexivity. Qed.

(** C16.  [dec_value ds] is the real number 0.ds, [fraction v] is |v| - |trunc v|. *)
Theorem C16_float : forall v junk s t, 0 <= size s <= capacity s ->
  is_finite 24 128 v = true -> (-2147483649 < B2R 24 128 v < 2147483648)%R ->
  dec_text (Ztrunc (B2R 24 128 v)) t -> zlen t <= capacity s - size s ->
  exists s' frac, step (OFloat v junk) s = Ok s' /\ capacity s' = capacity s /\ size s' <= capacity s' /\
    asStringView s' = asStringView s ++ t ++ frac /\
    (u32 (prec s) = 0 \/ zlen t = capacity s - size s -> frac = []) /\
    (0 < u32 (prec s) /\ zlen t < capacity s - size s -> exists ds, frac = 46 :: ds /\ Forall is_digit ds /\
       zlen ds = Z.min (u32 (prec s)) (capacity s - size s - zlen t - 1) /\
       (- / 10 ^ length ds - / 16777216 < dec_value ds - fraction v <= / 16777216)%R /\
       ((8 <= Rabs (B2R 24 128 v))%R -> (0 <= fraction v - dec_value ds < / 10 ^ length ds)%R)).
Proof.
  intros v junk s t Hs Hf Hv D L. destruct (float_text v junk s t Hs (conj Hf Hv) D L) as (s' & frac & E & _ & H1 & H2 & H3 & H4 & H5).
  exists s', frac. split; [exact E|]. split; [exact H1|]. split; [exact H2|]. split; [exact H3|]. split; [exact H4|exact H5].
Qed.
Print Assumptions C16_float.
Theorem C16_no_minus_sign : forall v junk s, 0 <= size s <= capacity s -> is_finite 24 128 v = true ->
  (-1 < B2R 24 128 v < 0)%R -> 1 <= capacity s - size s ->
  exists s' t, step (OFloat v junk) s = Ok s' /\ asStringView s' = asStringView s ++ t /\ ~ In 45 t /\ nthZ t 0 = 48.
Proof. exact float_no_sign. Qed.
Print Assumptions C16_no_minus_sign.
(** integer part too long: the rest of the buffer is exposed with whatever [std::to_chars] left there *)
Theorem C16_no_room : forall v junk s t, 0 <= size s <= capacity s ->
  is_finite 24 128 v = true -> (-2147483649 < B2R 24 128 v < 2147483648)%R ->
  dec_text (Ztrunc (B2R 24 128 v)) t -> capacity s - size s < zlen t ->
  exists s' g, step (OFloat v junk) s = Ok s' /\ asStringView s' = asStringView s ++ g /\ size s' = capacity s /\ capacity s' = capacity s.
Proof.
  intros v junk s t Hs Hf Hv D L. pose proof (dec_text_unique _ _ _ D (decimal_text _)). subst t.
  destruct (insFloat_full v junk s Hs (conj Hf Hv) L) as (s' & g & E & _ & (A1 & A2 & A3 & A4) & Lg).
  exists s', g. repeat split; try assumption. unfold room in Lg. lia.
Qed.
Print Assumptions C16_no_room.
Theorem C16_all_or_nothing_refuted : exists v s s', step (OFloat v []) s = Ok s' /\ 0 <= size s <= capacity s /\
  asStringView s = [] /\ asStringView s' = [83;69] (* stale bytes "SE" *) /\ dec_text (Ztrunc (B2R 24 128 v)) [49;50;51].
Proof.
  exists (b32_of_bits 0x42F60000), (create [83;69]). eexists. split; [vm_compute; reflexivity|]. (* 123.0f *)
  split; [vm_compute; split; discriminate|]. split; [reflexivity|]. split; [reflexivity|].
  rewrite <- Btrunc_Ztrunc. assert (E : Btrunc 24 128 (b32_of_bits 0x42F60000) = 123) by (vm_compute; reflexivity).
  rewrite E. exact (decimal_text 123).
Qed.
Print Assumptions C16_all_or_nothing_refuted.
Example C16_run : (* -0.5 with two decimals prints 0.50; 3.14159 with four prints 3.1415 *)
  (match run [OI (IPrecision 2); OFloat (b32_of_bits 0xBF000000) []] (create (repeat 0 16)) with
   | Ok s => asStringView s = [48;46;53;48] | _ => False end) /\
  (match run [OI (IPrecision 4); OFloat (b32_of_bits 0x40490FD0) []] (create (repeat 0 16)) with
   | Ok s => asStringView s = [51;46;49;52;49;53] | _ => False end).
Proof. vm_compute. split; reflexivity. Qed.

(** C17 *)
Theorem C17_step : forall o s s', 0 <= size s <= capacity s -> well_formed o -> step o s = Ok s' ->
  prec s' = (match o with OI (IPrecision p) => p | OClear => 0 | _ => prec s end) /\
  fillc s' = (match o with OI (IFill c) => c | OClear => 32 | _ => fillc s end) /\
  (match o with
   | OI (IWidth w) => wid s' = w
   | OClear => wid s' = 0
   | OI (IInt n _) => exists t, dec_text n t /\
       wid s' = if (zlen t <=? capacity s - size s) && (0 <? wid s) then 0 else wid s
   | _ => wid s' = wid s
   end).
Proof. exact step_format. Qed.
Print Assumptions C17_step.
Theorem C17_persist : forall os s s', 0 <= size s <= capacity s -> Forall well_formed os -> run os s = Ok s' ->
  (forallb (fun o => match o with OI (IPrecision _) | OClear => false | _ => true end) os = true -> prec s' = prec s) /\
  (forallb (fun o => match o with OI (IFill _) | OClear => false | _ => true end) os = true -> fillc s' = fillc s) /\
  (forallb (fun o => match o with OI (IWidth _) | OI (IInt _ _) | OClear => false | _ => true end) os = true -> wid s' = wid s).
Proof. exact run_format. Qed.
Print Assumptions C17_persist.
Theorem C17_manipulators_print_nothing : forall o s s', (exists p, o = IPrecision p) \/ (exists w, o = IWidth w) \/ (exists c, o = IFill c) ->
  istep o s = Ok s' -> asStringView s' = asStringView s /\ mem s' = mem s.
Proof. intros o s s' [[p ->]|[[w ->]|[c ->]]] E; apply Ok_inj in E; subst; split; reflexivity. Qed.
Print Assumptions C17_manipulators_print_nothing.
Theorem C17_clear : forall s s', step OClear s = Ok s' ->
  asStringView s' = [] /\ size s' = 0 /\ prec s' = 0 /\ wid s' = 0 /\ fillc s' = 32 /\ capacity s' = capacity s /\
  (forall b, s' = create b <-> b = mem s).
Proof.
  intros s s' E. apply Ok_inj in E. subst. repeat split; intros H; [|subst; reflexivity].
  apply (f_equal mem) in H. cbn in H. auto.
Qed.
Print Assumptions C17_clear.
Example C17_run : match run [OI (IWidth 3); OI (IFill 42); OI (IStr [65]); OI (IInt 7 []); OI (IInt 8 [])] (create (repeat 0 9)) with
  | Ok s => asStringView s = [65;42;42;55;56] (* A**78 *) /\ wid s = 0 /\ fillc s = 42 | _ => False end.
Proof. vm_compute. repeat split. Qed.

(** C18 *)
Theorem C18_data : forall s, 0 <= size s <= capacity s ->
  (data s = asStringView s <-> size s < 65536) /\
  zlen (data s) = size s mod 65536 /\ exists rest, asStringView s = data s ++ rest.
Proof. intros s Hs. split; [apply data_iff; exact Hs|apply data_prefix; exact Hs]. Qed.
Print Assumptions C18_data.
(** every state reached from construction satisfies the hypothesis on size used above *)
Theorem C18_reachable : forall buffer os s, Forall well_formed os -> run os (create buffer) = Ok s ->
  0 <= size s <= capacity s /\ capacity s = zlen buffer.
Proof. intros buffer os s Hw E. exact (run_inside os (create buffer) s (create_inside buffer) Hw E). Qed.
Print Assumptions C18_reachable.
Example C18_run : match run [OI (IStr (repeat 65 (Z.to_nat 65537)))] (create (repeat 0 (Z.to_nat 65540))) with
  | Ok s => data s = [65] /\ size s = 65537 | _ => False end.
Proof. vm_compute. split; reflexivity. Qed.
