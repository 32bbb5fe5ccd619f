(** The reader of [S_Header] understands the text of [S_FontText]. *)
From Coq Require Import String Ascii.
From Verif Require Import Base S_BufferedOut S_Font S_Packing S_FontText S_Header M_Font M_Packing M_FontText L_Decimal.
Open Scope Z_scope.
Open Scope list_scope.

(** ** Tokens *)
Lemma lex_word v : forall w t, forallb word_char v = true -> lex (InWord w) (v ++ t) = lex (InWord (w ++ v)) t.
Proof.
  induction v as [|c v IH]; intros w t H; [rewrite app_nil_r; reflexivity|]. cbn [forallb] in H. apply andb_prop in H. destruct H as [H1 H2].
  cbn [app lex]. rewrite H1, IH by exact H2. rewrite <- app_assoc. reflexivity.
Qed.
Lemma start_word c : word_char c = true -> start c = ([], InWord [c]).
Proof.
  intros H. unfold start. replace (space_char c) with false; [rewrite H; reflexivity|]. unfold word_char in H. unfold space_char. lia.
Qed.
Lemma lex_begin v t : v <> [] -> forallb word_char v = true -> lex Between (v ++ t) = lex (InWord v) t.
Proof.
  destruct v as [|c v]; [contradiction|]. intros _ H. cbn [forallb] in H. apply andb_prop in H. destruct H as [H1 H2].
  cbn [app lex]. rewrite start_word by exact H1. cbn [fst snd app]. rewrite lex_word by exact H2. reflexivity.
Qed.
Lemma lex_end w c t : word_char c = false -> lex (InWord w) (c :: t) = Word w :: lex Between (c :: t).
Proof. intros H. cbn [lex]. rewrite H. reflexivity. Qed.
Lemma lex_spaces pad t : Forall (eq 32) pad -> lex Between (pad ++ t) = lex Between t.
Proof. intros H. induction H as [|c pad E H IH]; [reflexivity|]. subst c. cbn [app lex]. exact IH. Qed.
Lemma lex_comment v t : ~ In 10 v -> lex InComment (v ++ t) = lex InComment t.
Proof.
  induction v as [|c v IH]; intros H; [reflexivity|]. cbn [app lex]. replace (c =? 10) with false; [apply IH; intros K; apply H; right; exact K|].
  symmetry. apply Z.eqb_neq. intros ->. apply H. left. reflexivity.
Qed.
Lemma lex_punct c t : space_char c = false -> word_char c = false -> c <> 47 -> lex Between (c :: t) = Punct c :: lex Between t.
Proof. intros A B C. cbn [lex]. unfold start. rewrite A, B. replace (c =? 47) with false by lia. reflexivity. Qed.

(** tokens of a number *)
Definition num_tokens (t : list Z) : list token := match t with c :: ds => if c =? 45 then [Punct 45; Word ds] else [Word t] | [] => [] end.
Definition num_leaf (t : list Z) : tree := match t with c :: ds => if c =? 45 then Leaf true ds else Leaf false t | [] => Leaf false [] end.
Lemma digits_word ds : Forall is_digit ds -> forallb word_char ds = true.
Proof. intros H. apply forallb_forall. intros c Hc. rewrite Forall_forall in H. specialize (H c Hc). unfold is_digit in H. unfold word_char. lia. Qed.
Lemma lex_number n t c r : dec_text n t -> word_char c = false -> lex Between (t ++ c :: r) = num_tokens t ++ lex Between (c :: r).
Proof.
  intros [[_ [A [B _]]]|[_ [ds [-> [A [B _]]]]]] Hc.
  - rewrite lex_begin by (try exact A; apply digits_word; exact B). rewrite lex_end by exact Hc. destruct t as [|d t]; [contradiction|].
    inversion B as [|? ? Hd _]; subst. unfold is_digit in Hd. unfold num_tokens. replace (d =? 45) with false by lia. reflexivity.
  - cbn [app]. rewrite lex_punct by (reflexivity || lia). rewrite lex_begin by (try exact A; apply digits_word; exact B). rewrite lex_end by exact Hc. reflexivity.
Qed.
Lemma lex_aligned w n t c r : right_aligned w n t -> word_char c = false -> exists d, dec_text n d /\ lex Between (t ++ c :: r) = num_tokens d ++ lex Between (c :: r).
Proof.
  intros [d [pad [D [-> [P _]]]]] Hc. exists d. split; [exact D|]. rewrite <- app_assoc, lex_spaces by exact P. exact (lex_number n d c r D Hc).
Qed.
Lemma read_num n t o l ts : dec_text n t -> read_init Element (l :: o) (num_tokens t ++ ts) = read_init Separator ((num_leaf t :: l) :: o) ts.
Proof.
  intros D. destruct D as [[_ [A [B _]]]|[_ [ds [-> [A [B _]]]]]]; [|reflexivity].
  destruct t as [|d t]; [contradiction|]. inversion B as [|? ? Hd _]; subst. unfold is_digit in Hd. unfold num_tokens, num_leaf. replace (d =? 45) with false by lia. reflexivity.
Qed.

(** ** Values *)
Lemma read_horner ds : forall acc, Forall is_digit ds -> read_digits dec_digit 10 acc ds = Some (horner acc ds).
Proof.
  induction ds as [|d ds IH]; intros acc H; [reflexivity|]. inversion H as [|? ? Hd Hds]; subst. cbn [read_digits horner]. unfold is_digit in Hd. unfold dec_digit.
  replace ((48 <=? d) && (d <=? 57)) with true by lia. apply IH. exact Hds.
Qed.
Lemma numeral_value n ds : numeral n ds -> word_value ds = Some n.
Proof.
  intros [A [B [C D]]]. pose proof (read_horner ds 0 B) as R. rewrite C in R. destruct ds as [|d [|d2 ds]]; [contradiction| |].
  - inversion B as [|? ? Hd _]; subst. unfold is_digit in Hd. unfold word_value, dec_digit. replace ((48 <=? d) && (d <=? 57)) with true by lia. cbn [horner]. f_equal; lia.
  - unfold word_value. destruct (d =? 48) eqn:E; [|exact R]. exfalso. apply Z.eqb_eq in E. subst d. specialize (D eq_refl). discriminate.
Qed.
Lemma num_value n t : dec_text n t -> number (num_leaf t) = Some n.
Proof.
  intros [[Hn D]|[Hn [ds [-> D]]]].
  - destruct t as [|d t]; [destruct D as [D _]; contradiction|]. destruct D as [A [B C]]. inversion B as [|? ? Hd _]; subst. unfold is_digit in Hd.
    unfold num_leaf. replace (d =? 45) with false by lia. unfold number. rewrite (numeral_value n) by (split; [exact A|split; [exact B|exact C]]). reflexivity.
  - unfold num_leaf. cbn [Z.eqb Pos.eqb]. unfold number. rewrite (numeral_value (- n)) by exact D. f_equal; lia.
Qed.
Lemma hexchar_word d : 0 <= d < 16 -> word_char (hexchar d) = true.
Proof. intros H. unfold hexchar, word_char. destruct (d <? 10) eqn:E; lia. Qed.
Lemma hexchar_value d : 0 <= d < 16 -> hex_digit (hexchar d) = Some d.
Proof.
  intros H. unfold hexchar, hex_digit. destruct (d <? 10) eqn:E.
  - replace ((48 <=? 48 + d) && (48 + d <=? 57)) with true by lia. f_equal; lia.
  - replace ((48 <=? 55 + d) && (55 + d <=? 57)) with false by lia. replace ((65 <=? 55 + d) && (55 + d <=? 70)) with true by lia. f_equal; lia.
Qed.
Definition hex_word (b : Z) : list Z := 48 :: 120 :: hex2 b.
Lemma hex_word_chars b : is_byte b -> forallb word_char (hex_word b) = true.
Proof.
  intros Hb. unfold is_byte in Hb. unfold hex_word, hex2. cbn [forallb].
  rewrite !hexchar_word by (split; [apply Z.div_pos|apply Z.div_lt_upper_bound] || apply Z.mod_pos_bound; lia). reflexivity.
Qed.
Lemma hex_word_value b : is_byte b -> number (Leaf false (hex_word b)) = Some b.
Proof.
  intros Hb. unfold is_byte in Hb. assert (0 <= b / 16 < 16) by (split; [apply Z.div_pos|apply Z.div_lt_upper_bound]; lia). pose proof (Z.mod_pos_bound b 16).
  unfold number, hex_word, hex2. cbn [word_value]. cbn [Z.eqb Pos.eqb andb]. change (negb (zlen [hexchar (b / 16); hexchar (b mod 16)] =? 0)) with true. cbv iota.
  cbn [read_digits]. rewrite !hexchar_value by lia. f_equal; lia.
Qed.

(** ** The bitmap array *)
Definition comma_words (bs : list Z) : list token := concat (map (fun b => [Punct 44; Word (hex_word b)]) bs).
Lemma lex_more bs : forall w k r, bytes bs -> 0 < k ->
  lex (InWord w) (byte_literals k bs ++ array_tail ++ r) = Word w :: comma_words bs ++ [Punct 125; Punct 59] ++ lex Between r.
Proof.
  induction bs as [|b bs IH]; intros w k r Hb Hk; [reflexivity|]. inversion Hb as [|? ? H1 H2]; subst.
  cbn [byte_literals]. replace (before_byte k) with (44 :: (if k mod 12 =? 0 then [10; 32; 32] else [32]))
    by (unfold before_byte; replace (k =? 0) with false by lia; destruct (k mod 12 =? 0); reflexivity).
  change (comma_words (b :: bs)) with ([Punct 44; Word (hex_word b)] ++ comma_words bs).
  cbn [app]. rewrite lex_end by reflexivity. rewrite lex_punct by (reflexivity || lia). f_equal. f_equal.
  rewrite <- !app_assoc. change (txt "0x" ++ hex2 b ++ byte_literals (k + 1) bs ++ array_tail ++ r) with (hex_word b ++ byte_literals (k + 1) bs ++ array_tail ++ r).
  transitivity (lex Between (hex_word b ++ byte_literals (k + 1) bs ++ array_tail ++ r)); [destruct (k mod 12 =? 0); reflexivity|].
  rewrite lex_begin by (try discriminate; apply hex_word_chars; exact H1). apply IH; [exact H2|lia].
Qed.
Lemma lex_literals b bs r : bytes (b :: bs) ->
  lex Between (byte_literals 0 (b :: bs) ++ array_tail ++ r) = Word (hex_word b) :: comma_words bs ++ [Punct 125; Punct 59] ++ lex Between r.
Proof.
  intros Hb. inversion Hb as [|? ? H1 H2]; subst. cbn [byte_literals]. rewrite <- !app_assoc.
  change (txt "0x" ++ hex2 b ++ byte_literals (0 + 1) bs ++ array_tail ++ r) with (hex_word b ++ byte_literals (0 + 1) bs ++ array_tail ++ r).
  change (lex Between (before_byte 0 ++ hex_word b ++ byte_literals (0 + 1) bs ++ array_tail ++ r)) with (lex Between (hex_word b ++ byte_literals (0 + 1) bs ++ array_tail ++ r)).
  rewrite lex_begin by (try discriminate; apply hex_word_chars; exact H1). apply lex_more; [exact H2|lia].
Qed.
Lemma read_more bs : forall l r, read_init Separator [l] (comma_words bs ++ Punct 125 :: r) = Some (Node (rev l ++ map (fun b => Leaf false (hex_word b)) bs), r).
Proof.
  induction bs as [|b bs IH]; intros l r; [cbn; rewrite app_nil_r; reflexivity|].
  change (comma_words (b :: bs)) with ([Punct 44; Word (hex_word b)] ++ comma_words bs). rewrite <- app_assoc. cbn [app read_init Z.eqb Pos.eqb].
  rewrite IH. cbn [rev map]. rewrite <- app_assoc. reflexivity.
Qed.
Lemma all_bytes bs : bytes bs -> all number (map (fun b => Leaf false (hex_word b)) bs) = Some bs.
Proof.
  intros H. induction H as [|b bs Hb H IH]; [reflexivity|]. cbn [map all]. rewrite hex_word_value by exact Hb. rewrite IH. reflexivity.
Qed.

(** ** The glyph table *)
Definition glyph_tokens (o w h s x y : list Z) : list token :=
  [Punct 123] ++ num_tokens o ++ [Punct 44; Punct 123] ++ num_tokens w ++ [Punct 44] ++ num_tokens h ++ [Punct 125; Punct 44] ++
  num_tokens s ++ [Punct 44; Punct 123] ++ num_tokens x ++ [Punct 44] ++ num_tokens y ++ [Punct 125; Punct 125].
Definition glyph_tree (o w h s x y : list Z) : tree :=
  Node [num_leaf o; Node [num_leaf w; num_leaf h]; num_leaf s; Node [num_leaf x; num_leaf y]].

Lemma hexchar_not10 d : 0 <= d < 16 -> hexchar d <> 10.
Proof. intros H. unfold hexchar. destruct (d <? 10); lia. Qed.
Lemma comment_line c l r : is_byte c -> ~ In 10 l -> lex Between (txt "// 0x" ++ hex2 c ++ txt " '" ++ l ++ txt "'" ++ [10] ++ r) = lex Between r.
Proof.
  intros Hc Hl. unfold is_byte in Hc. assert (0 <= c / 16 < 16) by (split; [apply Z.div_pos|apply Z.div_lt_upper_bound]; lia). pose proof (Z.mod_pos_bound c 16 ltac:(lia)).
  change (lex Between (txt "// 0x" ++ hex2 c ++ txt " '" ++ l ++ txt "'" ++ [10] ++ r))
    with (lex InComment ((txt " 0x" ++ hex2 c ++ txt " '") ++ l ++ txt "'" ++ [10] ++ r)).
  rewrite lex_comment. 2: { intros K. cbn in K. pose proof (hexchar_not10 (c / 16) ltac:(lia)). pose proof (hexchar_not10 (c mod 16) ltac:(lia)). repeat destruct K as [K|K]; try lia; contradiction. }
  rewrite lex_comment by exact Hl. reflexivity.
Qed.
Definition ends_word (r : list Z) : Prop := match r with c :: _ => word_char c = false | [] => False end.
Lemma lex_field w n t r : right_aligned w n t -> ends_word r -> exists d, dec_text n d /\ lex Between (t ++ r) = num_tokens d ++ lex Between r.
Proof. intros A E. destruct r as [|c r]; [contradiction|]. exact (lex_aligned w n t c r A E). Qed.
Lemma lex_lits : (forall r, lex Between (txt "  { " ++ r) = [Punct 123] ++ lex Between r) /\
  (forall r, lex Between (txt ", {" ++ r) = [Punct 44; Punct 123] ++ lex Between r) /\
  (forall r, lex Between (txt "," ++ r) = [Punct 44] ++ lex Between r) /\
  (forall r, lex Between (txt " }," ++ r) = [Punct 125; Punct 44] ++ lex Between r) /\
  (forall r, lex Between (txt ", { " ++ r) = [Punct 44; Punct 123] ++ lex Between r) /\
  (forall r, lex Between (txt " } }" ++ r) = [Punct 125; Punct 125] ++ lex Between r).
Proof. repeat split. Qed.
(** the decimal text is the same wherever it stands *)
Definition shows (w n : Z) (t d : list Z) : Prop := dec_text n d /\ forall r, ends_word r -> lex Between (t ++ r) = num_tokens d ++ lex Between r.
Lemma aligned_shows w n t : right_aligned w n t -> exists d, shows w n t d.
Proof.
  intros A. pose proof A as [d [_ [D _]]]. exists d. split; [exact D|]. intros r E. destruct (lex_field w n t r A E) as [d' [D' L]].
  rewrite (dec_text_unique n d d' D D'). exact L.
Qed.
Lemma lex_line iconv off c (closing : bool) g line : one_line iconv -> glyph_line iconv off c closing g line -> 32 <= c < 256 ->
  (forall o, offset_column off o -> right_aligned 5 off o) ->
  exists o w h s x y, dec_text off o /\ dec_text (gw g) w /\ dec_text (gh g) h /\ dec_text (gshift g) s /\ dec_text (gox g) x /\ dec_text (goy g) y /\
    forall r, lex Between (line ++ r) = glyph_tokens o w h s x y ++ (if closing then [Punct 125; Punct 59] else [Punct 44]) ++ lex Between r.
Proof.
  intros HI [o [w [h [s [x [y [l [Ho [Hw [Hh [Hs [Hx [Hy [Hl ->]]]]]]]]]]]]]] Hc Hoff. apply Hoff in Ho.
  destruct (aligned_shows _ _ _ Ho) as [o0 [Do Lo]]. destruct (aligned_shows _ _ _ Hw) as [w0 [Dw Lw]]. destruct (aligned_shows _ _ _ Hh) as [h0 [Dh Lh]].
  destruct (aligned_shows _ _ _ Hs) as [s0 [Ds Ls]]. destruct (aligned_shows _ _ _ Hx) as [x0 [Dx Lx]]. destruct (aligned_shows _ _ _ Hy) as [y0 [Dy Ly]].
  exists o0, w0, h0, s0, x0, y0. repeat (split; [assumption|]). intros r. unfold glyph_tokens. rewrite <- !app_assoc.
  assert (Hl10 : ~ In 10 l).
  { destruct Hl as [[_ ->]|[_ [n E]]]; [intros [K|[]]; lia|]. subst l. destruct (iconv n [c]) as [o1| |] eqn:Ei; [exact (HI n c o1 Ei)| |]; intros []. }
  destruct lex_lits as [L1 [L2 [L3 [L4 [L5 L6]]]]].
  rewrite L1, Lo by reflexivity. rewrite L2, Lw by reflexivity. rewrite L3, Lh by reflexivity. rewrite L4, Ls by reflexivity. rewrite L5, Lx by reflexivity.
  rewrite L3, Ly by reflexivity. rewrite L6. do 13 f_equal.
  pose proof (comment_line c l r ltac:(unfold is_byte; lia) Hl10) as C.
  destruct closing; cbn [app].
  - change (Punct 125 :: Punct 59 :: lex Between (txt "// 0x" ++ hex2 c ++ txt " '" ++ l ++ txt "'" ++ [10] ++ r) = Punct 125 :: Punct 59 :: lex Between r).
    rewrite C. reflexivity.
  - change (Punct 44 :: lex Between (txt "// 0x" ++ hex2 c ++ txt " '" ++ l ++ txt "'" ++ [10] ++ r) = Punct 44 :: lex Between r).
    rewrite C. reflexivity.
Qed.
Lemma read_glyph_tokens no nw nh ns nx ny o w h s x y acc ts :
  dec_text no o -> dec_text nw w -> dec_text nh h -> dec_text ns s -> dec_text nx x -> dec_text ny y ->
  read_init Element [acc] (glyph_tokens o w h s x y ++ ts) = read_init Separator [glyph_tree o w h s x y :: acc] ts /\
  read_glyph_tree (glyph_tree o w h s x y) = Some (mkGlyph no nw nh ns nx ny).
Proof.
  intros Do Dw Dh Ds Dx Dy. split.
  - unfold glyph_tokens. rewrite <- !app_assoc. cbn [app read_init Z.eqb Pos.eqb]. rewrite (read_num no) by exact Do. cbn [read_init Z.eqb Pos.eqb].
    rewrite (read_num nw) by exact Dw. cbn [read_init Z.eqb Pos.eqb]. rewrite (read_num nh) by exact Dh. cbn [read_init Z.eqb Pos.eqb rev app].
    rewrite (read_num ns) by exact Ds. cbn [read_init Z.eqb Pos.eqb]. rewrite (read_num nx) by exact Dx. cbn [read_init Z.eqb Pos.eqb].
    rewrite (read_num ny) by exact Dy. reflexivity.
  - unfold glyph_tree, read_glyph_tree. cbn [all]. rewrite (num_value no), (num_value nw), (num_value nh), (num_value ns), (num_value nx), (num_value ny) by assumption. reflexivity.
Qed.
(** the glyphs a table text declares: offsets are running totals *)
Fixpoint placed (off : Z) (l : list glyph) : list glyph :=
  match l with [] => [] | g :: l => mkGlyph off (gw g) (gh g) (gshift g) (gox g) (goy g) :: placed (off + goff g) l end.
Lemma lex_table iconv last : one_line iconv -> forall l cs off lines,
  glyph_lines iconv last off (cs ++ [last]) l lines -> List.length l = S (List.length cs) -> ~ In last cs -> (forall c, In c (cs ++ [last]) -> 32 <= c < 256) ->
  0 <= off -> off + total (map goff l) < 100000 -> (forall g, In g l -> 0 <= goff g) ->
  exists toks trees, (forall r, lex Between (concat lines ++ r) = toks ++ [Punct 59] ++ lex Between r) /\
    (forall acc ts, read_init Element [acc] (toks ++ ts) = Some (Node (rev acc ++ trees), ts)) /\
    all read_glyph_tree trees = Some (placed off l).
Proof.
  intros HI. induction l as [|g l IH]; intros cs off lines H HL Hlast Hcs Ho Ht Hg; [discriminate|].
  assert (T0 : 0 <= total (map goff l)).
  { assert (Q : forall k, In k l -> 0 <= goff k) by (intros k Hk; apply Hg; right; exact Hk). clear -Q.
    induction l as [|a l IH]; [cbn; lia|]. cbn [map total]. pose proof (Q a (or_introl eq_refl)). pose proof (IH (fun k Hk => Q k (or_intror Hk))). lia. }
  cbn [map total] in Ht. pose proof (Hg g (or_introl eq_refl)) as Hg0.
  assert (HO : forall o, offset_column off o -> right_aligned 5 off o).
  { intros o [t [Dt [A [B C]]]]. assert (HLt : zlen t <= 5).
    { destruct Dt as [[_ Dt]|[K _]]; [|lia]. apply (numeral_len off t 5 Dt); lia. }
    destruct (B HLt) as [pad [E F]]. exists t, pad. auto. }
  destruct cs as [|c cs]; destruct lines as [|x lines]; cbn [app glyph_lines] in H; try contradiction.
  - destruct l as [|g2 l]; [|discriminate]. destruct lines as [|]; [|destruct H as [_ []]]. destruct H as [H _]. rewrite Z.eqb_refl in H.
    destruct (lex_line iconv off last true g x HI H (Hcs last (or_introl eq_refl)) HO) as [o [w [h [s [x1 [y [Do [Dw [Dh [Ds [Dx [Dy L]]]]]]]]]]]].
    exists (glyph_tokens o w h s x1 y ++ [Punct 125]), [glyph_tree o w h s x1 y]. split; [|split].
    + intros r. cbn [concat]. rewrite app_nil_r, L, <- app_assoc. reflexivity.
    + intros acc ts. rewrite <- app_assoc. rewrite (proj1 (read_glyph_tokens _ _ _ _ _ _ _ _ _ _ _ _ acc _ Do Dw Dh Ds Dx Dy)). reflexivity.
    + cbn [all placed]. rewrite (proj2 (read_glyph_tokens _ _ _ _ _ _ _ _ _ _ _ _ [] [] Do Dw Dh Ds Dx Dy)). reflexivity.
  - destruct H as [H1 H2]. cbn [List.length] in HL. injection HL as HL.
    replace (c =? last) with false in H1 by (symmetry; apply Z.eqb_neq; intros ->; apply Hlast; left; reflexivity).
    destruct (lex_line iconv off c false g x HI H1 (Hcs c (or_introl eq_refl)) HO) as [o [w [h [s [x1 [y [Do [Dw [Dh [Ds [Dx [Dy L]]]]]]]]]]]].
    destruct (IH cs (off + goff g) lines H2 HL) as [toks [trees [Lt [Rt At]]]];
      [intros K; apply Hlast; right; exact K|intros k Hk; apply Hcs; right; exact Hk|lia|lia|intros k Hk; apply Hg; right; exact Hk|].
    exists (glyph_tokens o w h s x1 y ++ [Punct 44] ++ toks), (glyph_tree o w h s x1 y :: trees). split; [|split].
    + intros r. cbn [concat]. rewrite <- app_assoc, L, Lt, <- !app_assoc. reflexivity.
    + intros acc ts. rewrite <- !app_assoc. rewrite (proj1 (read_glyph_tokens _ _ _ _ _ _ _ _ _ _ _ _ acc _ Do Dw Dh Ds Dx Dy)). cbn [app read_init Z.eqb Pos.eqb].
      rewrite Rt. cbn [rev]. rewrite <- app_assoc. reflexivity.
    + cbn [all placed]. rewrite (proj2 (read_glyph_tokens _ _ _ _ _ _ _ _ _ _ _ _ [] [] Do Dw Dh Ds Dx Dy)), At. reflexivity.
Qed.

(** ** The whole header *)
Lemma same_refl a : same a a = true.
Proof. induction a as [|x a IH]; [reflexivity|]. cbn [same]. rewrite Z.eqb_refl. exact IH. Qed.
Lemma identifier_app a b : identifier a = true -> forallb word_char b = true -> identifier (a ++ b) = true.
Proof.
  intros A B. destruct a as [|c a]; [discriminate|]. unfold identifier in *. cbn [app]. destruct (dec_digit c); [discriminate|].
  change (c :: a ++ b) with ((c :: a) ++ b). rewrite forallb_app, A, B. reflexivity.
Qed.
Lemma identifier_word a : identifier a = true -> a <> [] /\ forallb word_char a = true.
Proof. destruct a as [|c a]; [discriminate|]. unfold identifier. destruct (dec_digit c); [discriminate|]. intros H. split; [discriminate|exact H]. Qed.
Lemma lex_name name suffix r : identifier name = true -> forallb word_char suffix = true -> ends_word r ->
  lex Between (name ++ suffix ++ r) = Word (name ++ suffix) :: lex Between r.
Proof.
  intros H S E. apply identifier_word in H. destruct H as [H1 H2]. rewrite app_assoc. rewrite lex_begin; [| |rewrite forallb_app, H2, S; reflexivity].
  - destruct r as [|c r]; [contradiction|]. apply lex_end. exact E.
  - destruct name; [contradiction|discriminate].
Qed.
Lemma lex_array_head name r : identifier name = true ->
  lex Between (array_head name ++ r) = [Word (txt "const"); Word (txt "uint8_t"); Word (name ++ txt "Bitmaps"); Punct 91; Punct 93; Punct 61; Punct 123] ++ lex Between r.
Proof.
  intros H. unfold array_head. rewrite <- !app_assoc.
  change (lex Between (txt "const uint8_t " ++ name ++ txt "Bitmaps[] = {" ++ [10] ++ r))
    with ([Word (txt "const"); Word (txt "uint8_t")] ++ lex Between (name ++ txt "Bitmaps" ++ txt "[] = {" ++ [10] ++ r)).
  rewrite lex_name by (exact H || reflexivity). reflexivity.
Qed.
Lemma lex_table_head name r : identifier name = true ->
  lex Between (table_head name ++ r) = [Word (txt "const"); Word (txt "GFXglyph"); Word (name ++ txt "Glyphs"); Punct 91; Punct 93; Punct 61; Punct 123] ++ lex Between r.
Proof.
  intros H. unfold table_head. rewrite <- !app_assoc.
  change (lex Between (txt "const GFXglyph " ++ name ++ txt "Glyphs[] = {" ++ [10] ++ r))
    with ([Word (txt "const"); Word (txt "GFXglyph")] ++ lex Between (name ++ txt "Glyphs" ++ txt "[] = {" ++ [10] ++ r)).
  rewrite lex_name by (exact H || reflexivity). reflexivity.
Qed.
Lemma lex_hex b r : is_byte b -> ends_word r -> lex Between (txt "0x" ++ hex2 b ++ r) = Word (hex_word b) :: lex Between r.
Proof.
  intros Hb E. change (txt "0x" ++ hex2 b ++ r) with (hex_word b ++ r). rewrite lex_begin by (try discriminate; apply hex_word_chars; exact Hb).
  destruct r as [|c r]; [contradiction|]. apply lex_end. exact E.
Qed.
Lemma lex_struct name first last height st : identifier name = true -> is_byte first -> is_byte last -> struct_text name first last height st ->
  exists h, dec_text height h /\
    lex Between st = [Word (txt "const"); Word (txt "GFXfont"); Word name; Punct 61; Punct 123; Word (name ++ txt "Bitmaps"); Punct 44; Word (name ++ txt "Glyphs"); Punct 44;
      Word (hex_word first); Punct 44; Word (hex_word last); Punct 44] ++ num_tokens h ++ [Punct 125; Punct 59].
Proof.
  intros H Hf Hl [h [D ->]]. exists h. split; [exact D|].
  match goal with |- lex Between (txt "const GFXfont " ++ ?r) = _ => change (lex Between (txt "const GFXfont " ++ r)) with ([Word (txt "const"); Word (txt "GFXfont")] ++ lex Between r) end.
  match goal with |- context [lex Between (name ++ ?r)] => change (name ++ r) with (name ++ [] ++ r); rewrite (lex_name name [] r) by (exact H || reflexivity) end. rewrite app_nil_r.
  match goal with |- context [lex Between (txt " = {" ++ [10] ++ txt "  " ++ ?r)] => change (lex Between (txt " = {" ++ [10] ++ txt "  " ++ r)) with ([Punct 61; Punct 123] ++ lex Between r) end.
  match goal with |- context [lex Between (name ++ txt "Bitmaps," ++ ?r)] => change (name ++ txt "Bitmaps," ++ r) with (name ++ txt "Bitmaps" ++ txt "," ++ r) end.
  rewrite (lex_name name) by (exact H || reflexivity).
  match goal with |- context [lex Between (txt "," ++ [10] ++ txt "  " ++ ?r)] => change (lex Between (txt "," ++ [10] ++ txt "  " ++ r)) with ([Punct 44] ++ lex Between r) end.
  match goal with |- context [lex Between (name ++ txt "Glyphs," ++ ?r)] => change (name ++ txt "Glyphs," ++ r) with (name ++ txt "Glyphs" ++ txt "," ++ r) end.
  rewrite (lex_name name) by (exact H || reflexivity).
  match goal with |- context [lex Between (txt "," ++ [10] ++ txt "  0x" ++ ?r)] => change (lex Between (txt "," ++ [10] ++ txt "  0x" ++ r)) with ([Punct 44] ++ lex Between (txt "0x" ++ r)) end.
  rewrite lex_hex by (exact Hf || reflexivity).
  match goal with |- context [lex Between (txt ", 0x" ++ ?r)] => change (lex Between (txt ", 0x" ++ r)) with ([Punct 44] ++ lex Between (txt "0x" ++ r)) end.
  rewrite lex_hex by (exact Hl || reflexivity).
  match goal with |- context [lex Between (txt ", " ++ ?r)] => change (lex Between (txt ", " ++ r)) with ([Punct 44] ++ lex Between r) end.
  change (h ++ txt " };" ++ [10]) with (h ++ 32 :: [125; 59; 10]). rewrite (lex_number height h) by (exact D || reflexivity). reflexivity.
Qed.
Lemma read_header_text iconv name (ascii : bool) b bs first last height l lines st :
  let top := if ascii then 126 else 255 in
  one_line iconv -> identifier name = true -> bytes (b :: bs) -> is_byte first -> is_byte last ->
  glyph_lines iconv top 0 (font_codes 32 top) l lines -> zlen l = zlen (font_codes 32 top) -> (forall g, In g l -> 0 <= goff g) -> total (map goff l) < 100000 ->
  struct_text name first last height st ->
  read_header (array_head name ++ byte_literals 0 (b :: bs) ++ array_tail ++ table_head name ++ concat lines ++ [10] ++ st) =
    Some (mkDeclared name (b :: bs) (placed 0 l) first last height).
Proof.
  intros top HI Hn Hb Hf Hl HG HL Hg Ht HS.
  assert (HC : exists cs, font_codes 32 top = cs ++ [top] /\ ~ In top cs /\ forall c, In c (cs ++ [top]) -> 32 <= c < 256).
  { exists (removelast (font_codes 32 top)). assert (Q : forallb (fun c => (32 <=? c) && (c <? 256)) (font_codes 32 top) = true) by (destruct ascii; reflexivity).
    assert (E : font_codes 32 top = removelast (font_codes 32 top) ++ [top]) by (destruct ascii; vm_compute; reflexivity). split; [exact E|]. split.
    - intros K. assert (X : forallb (fun c => negb (c =? top)) (removelast (font_codes 32 top)) = true) by (destruct ascii; vm_compute; reflexivity).
      rewrite forallb_forall in X. specialize (X top K). rewrite Z.eqb_refl in X. discriminate.
    - rewrite <- E. intros c Hc. rewrite forallb_forall in Q. specialize (Q c Hc). lia. }
  destruct HC as [cs [EC [Hlast Hcs]]]. rewrite EC in HG, HL.
  destruct (lex_table iconv top HI l cs 0 lines HG) as [toks [trees [Lt [Rt At]]]];
    [unfold zlen in HL; rewrite app_length in HL; cbn [List.length] in HL; lia|exact Hlast|exact Hcs|lia|lia|exact Hg|].
  destruct (lex_struct name first last height st Hn Hf Hl HS) as [h [Dh Ls]].
  unfold read_header. rewrite lex_array_head by exact Hn. rewrite lex_literals by exact Hb. rewrite lex_table_head by exact Hn. rewrite Lt.
  change (lex Between ([10] ++ st)) with (lex Between st). rewrite Ls.
  (* first declaration *)
  set (T3 := _ ++ num_tokens h ++ [Punct 125; Punct 59]).
  set (T2 := [Word (txt "const"); Word (txt "GFXglyph"); Word (name ++ txt "Glyphs"); Punct 91; Punct 93; Punct 61; Punct 123] ++ toks ++ [Punct 59] ++ T3).
  assert (R1 : read_declaration ([Word (txt "const"); Word (txt "uint8_t"); Word (name ++ txt "Bitmaps"); Punct 91; Punct 93; Punct 61; Punct 123] ++
      Word (hex_word b) :: comma_words bs ++ [Punct 125; Punct 59] ++ T2) =
    Some (mkDecl (txt "uint8_t") (name ++ txt "Bitmaps") true (Node (map (fun b => Leaf false (hex_word b)) (b :: bs))), T2)).
  { cbn [app]. unfold read_declaration. rewrite same_refl. cbn [Z.eqb Pos.eqb andb]. unfold read_rest. cbn [read_init Z.eqb Pos.eqb]. rewrite read_more. reflexivity. }
  assert (R2 : read_declaration T2 = Some (mkDecl (txt "GFXglyph") (name ++ txt "Glyphs") true (Node trees), T3)).
  { unfold T2. cbn [app]. unfold read_declaration. rewrite same_refl. cbn [Z.eqb Pos.eqb andb]. unfold read_rest. cbn [read_init Z.eqb Pos.eqb]. rewrite Rt. reflexivity. }
  assert (R3 : read_declaration T3 = Some (mkDecl (txt "GFXfont") name false
      (Node [Leaf false (name ++ txt "Bitmaps"); Leaf false (name ++ txt "Glyphs"); Leaf false (hex_word first); Leaf false (hex_word last); num_leaf h]), [])).
  { unfold T3. cbn [app]. unfold read_declaration. rewrite same_refl. cbn [Z.eqb Pos.eqb]. unfold read_rest. cbn [read_init Z.eqb Pos.eqb]. rewrite (read_num height) by exact Dh. reflexivity. }
  rewrite R1, R2, R3. cbn [dinit darray dtype dname]. rewrite !same_refl. rewrite Hn, !identifier_app by (exact Hn || reflexivity). cbn [andb negb].
  rewrite (all_bytes (b :: bs) Hb), At. cbn [all]. rewrite !hex_word_value, (num_value height) by assumption. reflexivity.
Qed.
(** running totals as in the binary output *)
Lemma placed_binary t : forall off, 0 <= off -> off + total (map (fun d : glyphData => zlen (snd d)) t) < 65536 -> Forall (fun d : glyphData => goff (fst d) = zlen (snd d)) t ->
  placed off (map fst t) = binaryGlyphs off t.
Proof.
  induction t as [|[g data] t IH]; intros off Ho Ht Hg; [reflexivity|]. inversion Hg as [|? ? H1 H2]; subst. cbn [map total fst snd] in *. cbn [placed binaryGlyphs].
  pose proof (zlen_nonneg data). assert (0 <= total (map (fun d : glyphData => zlen (snd d)) t)).
  { clear. induction t as [|a t IH]; [cbn; lia|]. cbn [map total]. pose proof (zlen_nonneg (snd a)). lia. }
  f_equal. unfold u16. rewrite Z.mod_small by lia. rewrite H1. apply IH; [lia|lia|exact H2].
Qed.
