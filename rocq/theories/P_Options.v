(** Properties C67 and C68: the converter's command line, and the name of the generated font. *)
From Coq Require Import String Ascii.
From Verif Require Import Base S_BufferedOut S_Graphics S_Font S_Packing S_FontText S_Header S_Pbm S_Options
  M_BufferedOut M_Pbm M_Font M_Packing M_FontText M_Options L_Decimal L_Pbm L_Header L_Options P_FontText P_Header.
Open Scope Z_scope.
Open Scope list_scope.

(** C67: what the converter does with a command line, from what the line says. *)
Theorem C67_command_line : forall sg args items e font enc,
  command_line args items e ->
  let s := settings items e in
  last_given 102 s [] font -> last_given 101 s (txt "ASCII") enc ->
  let bad := exists c a, In (c, a) s /\ (c = 100 \/ c = 115) /\ ~ exists n, reads_int a n in
  let odd := sg = true /\ exists c, In c enc /\ 128 <= c /\ c <> 255 in
  (bad -> startMain sg args = Ok Terminated) /\
  (~ bad -> odd -> startMain sg args = UB) /\
  (~ bad -> ~ odd -> (startMain sg args = Ok Usage <-> wants_help s e \/ font = [])) /\
  (~ bad -> ~ odd -> ~ (wants_help s e \/ font = []) ->
   forall size dots, last_number 115 s 12 size -> last_number 100 s 141 dots ->
   (size < 0 \/ 67108864 <= size -> startMain sg args = UB) /\
   (0 <= size < 67108864 -> exists j, startMain sg args = Ok (Converts j) /\
      jobFont j = font /\ jobDpi j = dots /\ (jobBinary j = true <-> given 98 s) /\ upper_case enc (jobEncoding j) /\
      (jobLast j = 126 /\ says_ascii enc \/ jobLast j = 255 /\ ~ says_ascii enc) /\
      jobCharSize j = (if size <? 33554432 then 64 * size else 64 * size - 4294967296) /\ font_name font size (jobLast j) (jobName j))).
Proof.
  intros sg args items e font enc HC s Hf He bad odd. apply last_given_arg in Hf, He.
  assert (Hbad : badNumber s = true <-> bad) by apply badNumber_spec.
  assert (Hodd : existsb (odd_char sg) enc = true <-> odd).
  { rewrite existsb_exists. unfold odd_char, odd. split.
    - intros (c & Hc & E). rewrite !andb_true_iff in E. destruct E as [[-> E1] E2]. split; [reflexivity|]. exists c. split; [exact Hc|].
      split; [lia|]. intros ->. discriminate.
    - intros [-> (c & Hc & H1 & H2)]. exists c. split; [exact Hc|]. cbn [andb]. apply andb_true_iff. split; [lia|]. apply negb_true_iff. lia. }
  set (help := existsb (fun p => other (fst p)) s || match e with Missing _ _ => true | _ => false end).
  assert (Hhelp : help = true <-> wants_help s e) by apply help_spec.
  set (last := if eqbl (map upChar enc) asciiName then 126 else 255).
  assert (EP : parseConfig sg args = if badNumber s then Ok None else if existsb (odd_char sg) enc then UB else
    Ok (Some (mkConfig font (lastArg 111 s []) (map upChar enc) (lastNum 100 s 141) (lastNum 115 s 12) last (isGiven 98 s) help))).
  { unfold parseConfig. rewrite (getopts_line _ _ _ HC), setOptions_events. fold s. destruct (badNumber s); [reflexivity|].
    assert (ES : setOptions (missing_event e) (applied s config0) = Some (mkConfig font (lastArg 111 s []) enc (lastNum 100 s 141) (lastNum 115 s 12) 255 (isGiven 98 s) help)).
    { unfold applied, config0. cbn [fontFileName outputDirectory encodingName dpi fontSize lastCode binary printHelp orb].
      change (lastArg 101 s asciiName) with (lastArg 101 s (txt "ASCII")). rewrite <- Hf, <- He. unfold help.
      destruct e; cbn [missing_event setOptions setOption fontFileName outputDirectory encodingName dpi fontSize lastCode binary printHelp];
      rewrite ?orb_false_r, ?orb_true_r; reflexivity. }
    rewrite ES. cbn [fontFileName outputDirectory encodingName dpi fontSize lastCode binary printHelp].
    rewrite toUppers_spec. destruct (existsb (odd_char sg) enc); reflexivity. }
  unfold startMain. rewrite EP. destruct (badNumber s) eqn:Eb.
  { split; [reflexivity|]. assert bad by (apply Hbad; reflexivity). split; [tauto|]. split; tauto. }
  assert (Nb : ~ bad) by (intros X; apply Hbad in X; discriminate). split; [tauto|].
  destruct (existsb (odd_char sg) enc) eqn:Eo.
  { assert odd by (apply Hodd; reflexivity). split; [reflexivity|]. split; tauto. }
  assert (No : ~ odd) by (intros X; apply Hodd in X; discriminate). split; [tauto|]. cbn [bind printHelp fontFileName].
  assert (HE : atEnd font = true <-> font = []) by (destruct font; cbn [atEnd]; split; congruence).
  destruct (help || atEnd font) eqn:Eh.
  { assert (wants_help s e \/ font = []) by (apply orb_true_iff in Eh; rewrite Hhelp, HE in Eh; exact Eh). split; [intros _ _; split; auto|]. tauto. }
  assert (Nh : ~ (wants_help s e \/ font = [])) by (rewrite <- Hhelp, <- HE, <- orb_true_iff, Eh; discriminate).
  split.
  { intros _ _. split; [|tauto]. cbn [fontSize]. destruct (charSize (lastNum 115 s 12)); cbn [bind]; discriminate. }
  intros _ _ _ size dots Hs Hd. apply lastNum_spec in Hs; [|auto|exact Eb]. apply lastNum_spec in Hd; [|auto|exact Eb].
  cbn [fontSize]. rewrite <- Hs, <- Hd. unfold charSize. split.
  - intros H. replace ((size <? 0) || (4294967296 <=? size * 64)) with true by lia. reflexivity.
  - intros H. replace ((size <? 0) || (4294967296 <=? size * 64)) with false by lia. cbn [bind]. eexists. split; [reflexivity|].
    cbn [jobFont jobDpi jobBinary jobEncoding jobLast jobCharSize jobName fontFileName encodingName dpi lastCode binary fontSize].
    split; [reflexivity|]. split; [reflexivity|]. split; [apply isGiven_spec|]. split; [apply upper_spec; reflexivity|].
    assert (HA : eqbl (map upChar enc) asciiName = true <-> says_ascii enc) by apply ascii_spec.
    split; [unfold last; destruct (eqbl (map upChar enc) asciiName); [left; split; [reflexivity|apply HA; reflexivity]|right; split; [reflexivity|]; intros X; apply HA in X; discriminate]|].
    split; [replace (size * 64 <=? INT_MAX) with (size <? 33554432) by (unfold INT_MAX; lia); destruct (size <? 33554432); lia|].
    exists (stripExtension (fileName [] font)), (decimal size). split; [apply stem_spec; reflexivity|]. split; [apply decimal_text|].
    unfold fontName. cbn [fontFileName fontSize lastCode]. unfold last. destruct (eqbl (map upChar enc) asciiName); reflexivity.
Qed.
Print Assumptions C67_command_line.

(** Every list of words is a command line with these pieces, so the theorem above speaks about all of them. *)
Theorem C67_total : forall args, exists items e, command_line args items e /\
  (exists font enc, last_given 102 (settings items e) [] font /\ last_given 101 (settings items e) (txt "ASCII") enc) /\
  (~ (exists c a, In (c, a) (settings items e) /\ (c = 100 \/ c = 115) /\ ~ exists n, reads_int a n) ->
   exists size dots, last_number 115 (settings items e) 12 size /\ last_number 100 (settings items e) 141 dots).
Proof.
  intros args. destruct (command_line_exists (List.length args) args (le_n _)) as (items & e & H). exists items, e. split; [exact H|].
  split; [eexists _, _; split; apply last_given_arg; reflexivity|]. intros Nb. rewrite <- badNumber_spec in Nb. apply not_true_is_false in Nb.
  eexists _, _. split; (apply lastNum_spec; [auto|exact Nb|reflexivity]).
Qed.
Print Assumptions C67_total.

(** "-s 10 -bfdir/Sans.ttf extra -e ascii -s12 -- -h" *)
Example C67_case :
  let args := [txt "-s"; txt "10"; txt "-bfdir/Sans.ttf"; txt "extra"; txt "-e"; txt "ascii"; txt "-s12"; txt "--"; txt "-h"] in
  let items := [Apart [] 115 (txt "10"); Joined [98] 102 (txt "dir/Sans.ttf"); Operand (txt "extra"); Apart [] 101 (txt "ascii"); Joined [] 115 (txt "12")] in
  command_line args items (Dashes [txt "-h"]) /\
  startMain true args = Ok (Converts (mkJob (txt "Sans12pt7b") (txt "dir/Sans.ttf") true (txt "ASCII") 126 141 768)) /\
  startMain true [txt "-fSans.ttf"; txt "-d"; txt " 96dpi"; txt "-e"; txt "koi8-r"] =
    Ok (Converts (mkJob (txt "Sans12pt8b") (txt "Sans.ttf") false (txt "KOI8-R") 255 96 768)) /\
  startMain true [txt "-fSans.ttf"; txt "-e"] = Ok Usage /\ startMain true [txt "-fSans.ttf"; txt "--help"] = Ok Usage /\
  startMain true [txt "-s"; txt "big"; txt "-h"] = Ok Terminated /\
  startMain true [txt "-fSans.ttf"; txt "-e"; [208; 191]] = UB /\ startMain true [txt "-fSans.ttf"; txt "-s-1"] = UB.
Proof.
  cbv zeta. split.
  - split; [|split; [exact I|reflexivity]].
    repeat (apply Forall_cons || apply Forall_nil).
    + split; [constructor|]. cbn. auto 8.
    + split; [repeat constructor; cbn; intuition lia|]. split; [cbn; auto 8|discriminate].
    + right. intros [r E]. discriminate.
    + split; [constructor|]. cbn. auto 8.
    + split; [constructor|]. split; [cbn; auto 8|discriminate].
  - repeat split; vm_compute; reflexivity.
Qed.

(** C68: the name is determined by the path, the size and the last code, ... *)
Theorem C68_name : forall path size last, 
  (exists name, font_name path size last name) /\
  forall n1 n2, font_name path size last n1 -> font_name path size last n2 -> n1 = n2.
Proof.
  intros path size last. split.
  - eexists _, _, _. split; [apply stem_spec; reflexivity|]. split; [apply decimal_text|]. reflexivity.
  - intros n1 n2 (s1 & t1 & S1 & D1 & ->) (s2 & t2 & S2 & D2 & ->). apply stem_spec in S1, S2. subst.
    rewrite (dec_text_unique _ _ _ D1 D2). reflexivity.
Qed.
Print Assumptions C68_name.

(** ... it is a C identifier exactly if the file's stem is one and the size is not negative, ... *)
Theorem C68_identifier : forall path size last name s, font_name path size last name -> stem_of path s ->
  (identifier name = true <-> identifier s = true /\ 0 <= size).
Proof.
  intros path size last name s (s' & t & S' & D & ->) S. apply stem_spec in S, S'. rewrite <- S in S'. subst s'. clear S.
  assert (HT : forallb word_char ([112; 116] ++ [if last =? 126 then 55 else 56] ++ [98]) = true) by (destruct (last =? 126); reflexivity).
  set (tail := [112; 116] ++ [if last =? 126 then 55 else 56] ++ [98]) in *.
  destruct D as [[Hn (Hne & Hd & _)]|[Hn (ds & -> & _)]].
  - destruct s as [|c s].
    + split; [|intros [X _]; discriminate]. intros X. exfalso. destruct t as [|d t]; [congruence|]. inversion Hd as [|? ? Hd0 _]; subst.
      cbn [app identifier] in X. unfold is_digit in Hd0.
      assert (d = 48 \/ d = 49 \/ d = 50 \/ d = 51 \/ d = 52 \/ d = 53 \/ d = 54 \/ d = 55 \/ d = 56 \/ d = 57) as Y by lia.
      repeat destruct Y as [-> | Y]; try subst d; discriminate.
    + cbn [app identifier]. destruct (dec_digit c); [intuition discriminate|].
      change (c :: s ++ t ++ tail) with ((c :: s) ++ t ++ tail). rewrite !forallb_app, HT, (word_digits t Hd), !andb_true_r. intuition.
  - split; [|lia]. intros X. exfalso. destruct s as [|c s]; [discriminate|]. cbn [app identifier] in X. destruct (dec_digit c); [discriminate|].
    change (c :: s ++ 45 :: ds ++ tail) with ((c :: s) ++ (45 :: ds ++ tail)) in X.
    rewrite forallb_app in X. apply andb_true_iff in X. destruct X as [_ X]. discriminate.
Qed.
Print Assumptions C68_identifier.

(** ... and then the header written for a command line that asks for one is C source that declares
    the font under this name with the codes 32 .. 126 or 255 *)
Theorem C68_header : forall sg args j path s iconv junk t height,
  startMain sg args = Ok (Converts j) -> path = jobFont j -> stem_of path s -> identifier s = true -> zlen (jobName j) <= 300 ->
  whole_bytes iconv -> one_line iconv ->
  Forall (fun d => glyph_typed (fst d) /\ bytes (snd d) /\ goff (fst d) = zlen (snd d)) t -> zlen t = (if jobLast j =? 126 then 95 else 191) ->
  0 < zlen (bitmapsFile t) <= 65535 -> - 2147483648 <= height < 2147483648 ->
  exists out, headerFile iconv junk (jobName j) (jobLast j =? 126) t firstChar (jobLast j) height = Ok out /\
    read_header out = Some (mkDeclared (jobName j) (bitmapsFile t) (binaryGlyphs 0 t) 32 (jobLast j) height).
Proof.
  intros sg args j path s iconv junk t height HJ Hpath HS Hid Hlen HW HO Ht HL Hb Hh. subst path.
  destruct (C67_total args) as (items & e & HC & (font & enc & Hf & He) & Hnum).
  destruct (C67_command_line sg args items e font enc HC Hf He) as (C1 & C2 & C3 & C4). cbv zeta in C1, C2, C3, C4.
  set (S := settings items e) in *.
  destruct (badNumber S) eqn:Eb; [rewrite C1 in HJ by (apply badNumber_spec; exact Eb); discriminate|].
  assert (Nb : ~ (exists c a, In (c, a) S /\ (c = 100 \/ c = 115) /\ ~ exists n, reads_int a n)) by (rewrite <- badNumber_spec, Eb; discriminate).
  assert (No : ~ (sg = true /\ exists c, In c enc /\ 128 <= c /\ c <> 255)) by (intros X; rewrite (C2 Nb X) in HJ; discriminate).
  assert (Nh : ~ (wants_help S e \/ font = [])) by (intros X; apply (C3 Nb No) in X; rewrite X in HJ; discriminate).
  destruct (Hnum Nb) as (size & dots & Hs & Hd). destruct (C4 Nb No Nh size dots Hs Hd) as [D1 D2].
  assert (Hsz : 0 <= size < 67108864) by (destruct (Z.lt_ge_cases size 0); [rewrite D1 in HJ by lia; discriminate|]; destruct (Z.lt_ge_cases size 67108864); [lia|rewrite D1 in HJ by lia; discriminate]).
  destruct (D2 Hsz) as (j' & EJ & Ef & _ & _ & _ & Hlast & _ & Hname). rewrite HJ in EJ. apply Ok_inj in EJ. injection EJ as <-.
  assert (Hi : identifier (jobName j) = true) by (apply (C68_identifier _ _ _ _ s Hname); [rewrite <- Ef; exact HS|]; split; [exact Hid|lia]).
  assert (Hlb : is_byte (jobLast j)) by (unfold is_byte; destruct Hlast as [[-> _]|[-> _]]; lia).
  destruct (C63_header iconv junk (jobName j) (jobLast j =? 126) t firstChar (jobLast j) height HW HO Hi Hlen Ht HL Hb ltac:(split; cbv; congruence) Hlb Hh) as (out & E1 & E2).
  exists out. split; [exact E1|exact E2].
Qed.
Print Assumptions C68_header.

(** usual names of font files give no identifier *)
Example C68_case :
  stem_of (txt "fonts/FreeSans.ttf") (txt "FreeSans") /\ font_name (txt "fonts/FreeSans.ttf") 15 126 (txt "FreeSans15pt7b") /\
  identifier (txt "FreeSans15pt7b") = true /\
  stem_of (txt "./DejaVuSans-Bold.v2.ttf") (txt "DejaVuSans-Bold.v2") /\ identifier (txt "DejaVuSans-Bold.v212pt8b") = false /\
  stem_of (txt "/usr/.fonts/.hidden") (txt ".hidden") /\ stem_of (txt "dir/") [].
Proof.
  assert (F : stem_of (txt "fonts/FreeSans.ttf") (txt "FreeSans")) by (apply stem_spec; reflexivity).
  split; [exact F|]. split; [exists (txt "FreeSans"), (txt "15"); split; [exact F|]; split; [apply (decimal_text 15)|reflexivity]|].
  split; [reflexivity|]. split; [apply stem_spec; reflexivity|]. split; [reflexivity|]. split; apply stem_spec; reflexivity.
Qed.
