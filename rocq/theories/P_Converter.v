(** Properties C73 and C74 (the font converter as a whole). *)
From Coq Require Import String.
From Verif Require Import Base S_Graphics S_Paint S_Font S_TextRoom S_Packing S_FontText S_Header S_Options M_Canvas M_Font M_Packing M_FontText M_Options
  L_Packing L_Header L_ConvertText P_Font P_Packing P_FontText P_Header P_Options M_Converter S_Converter S_ConverterOrder S_ConverterBytes L_Converter L_ConverterRun L_ConverterSteady L_ConverterOrder L_ConverterBytes L_ConverterTexts.
Open Scope Z_scope.
Open Scope list_scope.

(** C73: whatever the libraries answer and however the run ends, every library, face, glyph,
    conversion and file that was obtained is used only while it is open and given back exactly once, by
    the function for it, the last one first. *)
Theorem C73_handles : forall w sg junk argv0 args r l, runMain w sg junk argv0 args = Ok (r, l) -> orderly l.
Proof.
  intros w sg junk argv0 args r l H. unfold runMain in H. apply bind_inv in H. destruct H as (s & _ & H).
  destruct s as [| |j]; [apply Ok_inj in H; injection H as _ <-; constructor|apply Ok_inj in H; injection H as _ <-; constructor|].
  apply bind_inv in H. destruct H as (c & _ & H). apply bind_inv in H. destruct H as ([o l1] & E & H). apply Ok_inj in H. injection H as _ <-.
  destruct (runs_convert w junk argv0 _ j [] o l1 (Forall_nil _) E) as (ext & -> & R). cbn [app]. destruct o; [exact (proj1 R)|exact (proj1 R)].
Qed.
Print Assumptions C73_handles.
(** A conversion ends with exit code 0 if every call succeeded; after the first call that failed nothing
    but giving back happens, and the exit code is 1. *)
Theorem C73_failure : forall w sg junk argv0 args j r l,
  startMain sg args = Ok (Converts j) -> runMain w sg junk argv0 args = Ok (r, l) ->
  r = Exit 0 /\ Forall (fun e => ~ failed e) l \/
  r = Exit 1 /\ exists before e after, l = before ++ e :: after /\ Forall (fun e => ~ failed e) before /\ failed e /\ Forall gives_back after.
Proof.
  intros w sg junk argv0 args j r l HJ H. unfold runMain in H. rewrite HJ in H. cbn [bind] in H.
  apply bind_inv in H. destruct H as (c & _ & H). apply bind_inv in H. destruct H as ([o l1] & E & H). apply Ok_inj in H. injection H as <- <-.
  destruct (runs_convert w junk argv0 _ j [] o l1 (Forall_nil _) E) as (ext & -> & R). cbn [app]. destruct o.
  - left. split; [reflexivity|exact (proj1 (proj2 R))].
  - right. split; [reflexivity|exact (proj2 R)].
Qed.
Print Assumptions C73_failure.
(** Without a conversion nothing is touched. *)
Theorem C73_no_conversion : forall w sg junk argv0 args,
  (startMain sg args = Ok Usage -> runMain w sg junk argv0 args = Ok (Exit 1, [])) /\
  (startMain sg args = Ok Terminated -> runMain w sg junk argv0 args = Ok (Aborted, [])).
Proof. intros w sg junk argv0 args. split; intros H; unfold runMain; rewrite H; reflexivity. Qed.
Print Assumptions C73_no_conversion.
(** A file is created, or an old one overwritten, only after all 95 or 191 characters were loaded. *)
Theorem C73_complete_first : forall w sg junk argv0 args j r before p h after,
  startMain sg args = Ok (Converts j) -> runMain w sg junk argv0 args = Ok (r, before ++ FileOpen p h :: after) ->
  zlen (loaded before) = (if jobLast j =? 126 then 95 else 191).
Proof.
  intros w sg junk argv0 args j r before p h after HJ H. destruct (job_parts sg args j HJ) as (c0 & _ & HL).
  unfold runMain in H. rewrite HJ in H. cbn [bind] in H.
  apply bind_inv in H. destruct H as (c & _ & H). apply bind_inv in H. destruct H as ([o l1] & E & H). apply Ok_inj in H. injection H as _ ->.
  destruct (convert_late w junk argv0 _ j _ (job_codes j HL) [] o _ E) as (ext & E1 & L). cbn [app] in E1.
  pose proof (late_open _ _ before p h after L (eq_sym E1)) as N. unfold zlen. rewrite N, HL. destruct (eqbl (jobEncoding j) asciiName); reflexivity.
Qed.
Print Assumptions C73_complete_first.
(** Whatever fails, each call is made with what the command line asks for, and in its turn: the font file
    is opened after the interpreter version was set, characters are loaded after the face was scaled to the
    size and resolution of the job, each is rendered directly after it was loaded and copied directly after
    it was rendered, and files are opened in the directory asked for or the program's one. *)
Theorem C73_requests : forall w sg junk argv0 args items e j directory r l,
  startMain sg args = Ok (Converts j) -> command_line args items e -> last_given 111 (settings items e) [] directory ->
  runMain w sg junk argv0 args = Ok (r, l) -> all_in_turn j directory argv0 l.
Proof.
  intros w sg junk argv0 args items e j directory r l HJ HC Hd H. destruct (job_parts sg args j HJ) as (c & EC & _).
  pose proof (job_directory sg args j c items e directory HJ EC HC Hd) as Edir.
  unfold runMain in H. rewrite HJ, EC in H. cbn [bind] in H. rewrite Edir in H.
  apply bind_inv in H. destruct H as ([o l1] & E & H). apply Ok_inj in H. injection H as _ <-.
  refine (proj1 (turns_convert w junk argv0 directory j [] o l1 _ eq_refl E)). intros [|] x a X; discriminate X.
Qed.
Print Assumptions C73_requests.
(** The conversions: iconv gets the codes of the font one after the other (to UTF-8 only those above 126),
    each behind the bytes kept from the calls before, and the character loaded is its answer to the call
    just made. *)
Theorem C73_conversions : forall w sg junk argv0 args j r before e after,
  startMain sg args = Ok (Converts j) -> runMain w sg junk argv0 args = Ok (r, before ++ e :: after) -> converts w j before e.
Proof.
  intros w sg junk argv0 args j r before e after HJ H. destruct (job_parts sg args j HJ) as (c & EC & EL).
  unfold runMain in H. rewrite HJ, EC in H. cbn [bind] in H.
  apply bind_inv in H. destruct H as ([o l1] & E & H). apply Ok_inj in H. injection H as _ H.
  refine (proj1 (turns_convert_u w junk argv0 _ j EL (job_codes j EL) [] o l1 _ I E) before e after H). intros [|] x a X; discriminate X.
Qed.
Print Assumptions C73_conversions.
(** an encoding whose byte 195 begins a character of two bytes: it is kept, and stays kept *)
Example C73_kept : forall ok, let iconv := fun (_ _ : list Z) i => match i with [195] => Incomplete | [_; b] => Converted [b; 1; 0; 0] | _ => IconvError end in
  let w := mkWorld (fun _ => None) ok ok ok ok ok ok ok (fun _ _ => mkRendered 0 0 0 [] 0 0 0) (fun _ => 0) ok (fun _ => iconv) ok ok ok in
  conversions w (txt "UCS-4LE") (txt "X") 5 [IconvOpen (txt "UCS-4LE") (txt "X") (Some 5%nat); Iconv 5 [195]; FtLoadChar 3 0 true; Iconv 5 [195; 169]] 2 [195] /\
  ucs4 (iconv [] [] [195; 169]) = 425.
Proof.
  intros ok iconv w. split; [|reflexivity].
  pose proof (Opened w (txt "UCS-4LE") (txt "X") 5 []) as H. apply (Used _ _ _ _ _ _ _ [195]) in H.
  apply (Other _ _ _ _ _ _ _ (FtLoadChar 3 0 true)) in H; [|discriminate]. apply (Used _ _ _ _ _ _ _ [195; 169]) in H. exact H.
Qed.
(** No undefined behaviour, whatever fails, if the rendered bitmaps are as large as they say and FreeType
    has texts for its errors. *)
Theorem C73_defined : forall w sg junk argv0 args j,
  startMain sg args = Ok (Converts j) -> zlen (jobName j) <= 300 -> (forall l, wErrorText w l = true) ->
  (forall l c, rendered_ok (wGlyph w l c)) -> (forall l, whole_bytes (fun _ => wIconv w l (txt "UTF-8") (jobEncoding j))) ->
  (forall l, -2147483648 <= Z.quot (wHeight w l) 64 < 2147483648) ->
  exists code l, runMain w sg junk argv0 args = Ok (Exit code, l).
Proof.
  intros w sg junk argv0 args j HJ Hn Hw Hr HI Hh. destruct (job_parts sg args j HJ) as (c & EC & HL). unfold runMain. rewrite HJ. cbn [bind]. rewrite EC. cbn [bind].
  assert (S : safe (convert w junk argv0 (outputDirectory c) j) (fun _ => True)).
  { unfold convert. eapply (safe_bind _ _ (fun _ => True)).
    { intros l. destruct (wIsDirectory w l); eexists _, _; (split; [reflexivity|exact I]). }
    intros isDir _. eapply safe_bind; [apply safe_described; [exact Hw|apply safe_acquire]|intros lib _]. apply safe_scoped. eapply safe_bind; [apply safe_call|intros _ _].
    eapply safe_bind; [apply safe_described; [exact Hw|apply safe_acquire]|intros face _]. apply safe_scoped. eapply safe_bind; [apply safe_described; [exact Hw|apply safe_throw]|intros _ _].
    eapply safe_bind; [apply safe_table; [exact Hw|exact Hr|exact (job_codes j HL)]|intros t (T1 & T2)]. destruct (jobBinary j); [apply safe_binary|].
    eapply safe_bind; [apply safe_call|intros _ _]. eapply (safe_bind _ _ (fun h => -2147483648 <= h < 2147483648)).
    { intros l. specialize (Hh l). unfold lift. rewrite chk_ok by (unfold INT_MIN, INT_MAX; lia). cbn [bind]. eexists _, _. split; [reflexivity|exact Hh]. }
    intros h Hh'. apply safe_header; [exact HI|exact T1| |exact Hn| |exact Hh'].
    - unfold zlen. rewrite T2, HL. apply Z.le_refl.
    - rewrite HL. unfold is_byte. destruct (eqbl _ _); lia. }
  destruct (S []) as (o & l & E & _). rewrite E. cbn [bind]. destruct o; eexists _, _; reflexivity.
Qed.
Print Assumptions C73_defined.
(** The texts of errors decide whether a failure is reported: without a text for the error of a call that
    failed the behaviour is undefined, otherwise the run is the same as with all texts. *)
Theorem C73_error_texts : forall w sg junk argv0 args r l, runMain (with_texts w) sg junk argv0 args = Ok (r, l) ->
  (~ textless w l -> runMain w sg junk argv0 args = Ok (r, l)) /\ (textless w l -> runMain w sg junk argv0 args = UB).
Proof.
  intros w sg junk argv0 args r l H. unfold runMain in *. apply bind_inv in H. destruct H as (s & -> & H). cbn [bind].
  assert (N : ~ textless w []) by (intros (b & e & a & E & _); destruct b; discriminate).
  destruct s as [| |j]; [pose proof (Ok_inj _ _ H) as E; injection E as _ <-; tauto|pose proof (Ok_inj _ _ H) as E; injection E as _ <-; tauto|].
  apply bind_inv in H. destruct H as (c & -> & H). cbn [bind]. apply bind_inv in H. destruct H as ([o l1] & E & H). pose proof (Ok_inj _ _ H) as E2. injection E2 as <- <-.
  destruct (same_convert w junk argv0 _ j [] o l1 E) as (ext & -> & C). cbn [app] in *. change (lacks w [] ext) with (textless w ext) in C.
  destruct C as [[-> C]|[-> C]]; cbn [bind]; tauto.
Qed.
Print Assumptions C73_error_texts.

(** libraries for the cases below; [ok] tells which calls succeed after what *)
Definition someWorld (ok : log -> event -> bool) : world :=
  mkWorld (fun _ => Some true) (fun _ => true) (fun _ => true) (fun _ => true) (fun l => ok l (FtLoadChar 0 0 true)) (fun _ => true) (fun _ => true)
    (fun _ => true) (fun _ _ => ringch) (fun _ => 320) (fun l => ok l (IconvOpen [] [] None))
    (fun _ to _ i => match i with [c] => if eqbl to (txt "UTF-8") then Converted [63] else Converted [c; 0; 0; 0] | _ => IconvError end)
    (fun l => ok l (FileOpen [] None)) (fun l => ok l (FileWrite 0 [] true)) (fun _ => true).
Definition ringArgs : list (list Z) := map txt ["-f"; "fonts/Ring.ttf"; "-s4"; "-oout"]%string.
(** With FreeType's default configuration, which has no texts, a font file that cannot be opened does not
    give exit code 1 but undefined behaviour. *)
Theorem C73_reported_refuted : exists w argv0, (forall l, wErrorText w l = false) /\ (forall l, wNewFace w l = false) /\
  (exists l, runMain (with_texts w) true [] argv0 ringArgs = Ok (Exit 1, l) /\ textless w l) /\ runMain w true [] argv0 ringArgs = UB.
Proof.
  set (w0 := someWorld (fun _ _ => true)).
  exists (mkWorld (wIsDirectory w0) (wInit w0) (fun _ => false) (wSetCharSize w0) (wLoadChar w0) (wRender w0) (wGetGlyph w0) (wIsBitmap w0) (wGlyph w0)
    (wHeight w0) (wIconvOpen w0) (wIconv w0) (wOpen w0) (wWrite w0) (fun _ => false)), (txt "c").
  split; [reflexivity|]. split; [reflexivity|]. split; [|vm_compute; reflexivity].
  eexists. split; [vm_compute; reflexivity|]. eexists [_; _; _], _, [_]. split; [reflexivity|]. split; reflexivity.
Qed.
Print Assumptions C73_reported_refuted.
(** Failing writes are not noticed: exit code 0 and an incomplete file. *)
Theorem C73_written_refuted : exists w argv0 l p out, runMain w true [] argv0 ringArgs = Ok (Exit 0, l) /\
  files l = [(p, out)] /\ read_header out = None.
Proof.
  exists (someWorld (fun l e => match e with FileWrite _ _ _ => Nat.ltb (length l) 580 | _ => true end)), (txt "bin/converter").
  eexists _, _, _. split; [vm_compute; reflexivity|]. split; [vm_compute; reflexivity|vm_compute; reflexivity].
Qed.
Print Assumptions C73_written_refuted.
(** A run that fails may leave an incomplete file behind. *)
Theorem C73_left_refuted : exists w argv0 l p out, runMain w true [] argv0 ringArgs = Ok (Exit 1, l) /\
  files l = [(p, out)] /\ read_header out = None.
Proof.
  exists (someWorld (fun l e => match e with IconvOpen _ _ _ => Nat.ltb (length l) 500 | _ => true end)), (txt "bin/converter").
  eexists _, _, _. split; [vm_compute; reflexivity|]. split; [vm_compute; reflexivity|vm_compute; reflexivity].
Qed.
Print Assumptions C73_left_refuted.
(** the 60th character cannot be loaded *)
Example C73_case : exists l, runMain (someWorld (fun l e => match e with FtLoadChar _ _ _ => Nat.ltb (length l) 360 | _ => true end)) true [] (txt "c") ringArgs = Ok (Exit 1, l) /\
  startMain true ringArgs = Ok (Converts (mkJob (txt "Ring4pt7b") (txt "fonts/Ring.ttf") false asciiName 126 141 256)) /\
  length (loaded l) = 59%nat /\ files l = [] /\ skipn (length l - 5) l = [Iconv 5 [91]; FtLoadChar 3 91 false; IconvClose 5; FtDoneFace 3; FtDone 1].
Proof. eexists. split; [vm_compute; reflexivity|]. split; [reflexivity|]. vm_compute. repeat split. Qed.

(** C74: from the command line to texts drawn with the font: if no call fails, the run ends with exit
    code 0 and the only file is the header in the directory asked for, or in the program's directory if
    there is none; every code's character was asked of the font; and texts drawn with the font the header
    declares look as FreeType rendered them. *)
Theorem C74_header : forall w sg junk argv0 args items e j directory isDir ucs utf render height u,
  startMain sg args = Ok (Converts j) -> jobBinary j = false ->
  command_line args items e -> last_given 111 (settings items e) [] directory ->
  steady w (jobEncoding j) isDir ucs utf render height -> single_byte (fun _ => ucs) u -> whole_bytes (fun _ => utf) -> one_line (fun _ => utf) ->
  identifier (jobName j) = true -> zlen (jobName j) <= 300 -> -2147483648 <= Z.quot height 64 < 2147483648 ->
  (forall c, firstChar <= c <= jobLast j -> rendered_ok (render (u c))) ->
  0 < total (map (fun c => rsize (render (u c))) (font_codes firstChar (jobLast j))) <= 65535 ->
  exists l dir p out d,
    runMain w sg junk argv0 args = Ok (Exit 0, l) /\
    (isDir = true /\ dir = directory \/ isDir = false /\ directory_of argv0 dir) /\ path_in dir (jobName j ++ txt ".h") p /\
    files l = [(p, out)] /\ loaded l = map u (font_codes firstChar (jobLast j)) /\
    read_header out = Some d /\ dfont d = jobName j /\ dheight d = Z.quot height 64 /\
    let f := mkFont (dbitmap d) (dglyphs d) (dfirst d) (dlast d) in
    forall sg text c pos,
      (forall b, In b text -> In b (font_codes firstChar (jobLast j)) /\ b <> jobLast j /\ own_value sg b) ->
      in_reach c pos (total (map rendered_advance (map (fun b => render (u b)) text))) ->
      paints c (fun fuel => drawStringAt fuel sg c f pos text) (rendered_text (map (fun b => render (u b)) text) pos).
Proof.
  intros w sg junk argv0 args items e j directory isDir ucs utf render height u HJ HB HC Hd HS Hu HW HO Hid Hn Hh Hr Htot.
  destruct (job_parts sg args j HJ) as (c & EC & HL). pose proof (job_directory sg args j c items e directory HJ EC HC Hd) as Edir.
  set (ascii := eqbl (jobEncoding j) asciiName) in *.
  assert (EL : jobLast j = lastChar ascii) by exact HL. rewrite EL in Hr, Htot.
  destruct (C64_text (fun _ => ucs) u render (fun _ => utf) junk (jobName j) ascii (Z.quot height 64) Hu HW HO Hid Hn Hh Hr Htot) as (t & out & d & (n & HT) & Eo & Er & Htext).
  assert (ET : tableLoop (fun _ => ucs) render (font_codes firstChar (lastChar ascii)) newEncoder newBits = Ok t).
  { specialize (HT (n + 256)%nat ltac:(lia)). unfold makeTable in HT. rewrite codeLoop_ok in HT; [exact HT|left; unfold firstChar; lia|].
    unfold firstChar, lastChar. destruct ascii; lia. }
  destruct (convert_steady w isDir ucs utf render height u junk argv0 directory j HS Hu HL ltac:(rewrite EL; exact Hr) (fun _ => Hh)) as (t' & l & Ecv & F & ET' & Ld & _ & Fl).
  { intros t' _ T' _. rewrite EL in T'. rewrite T' in ET. apply Ok_inj in ET. subst t'. fold ascii. rewrite EL. exists out. exact Eo. }
  rewrite EL, ET in ET'. apply Ok_inj in ET'. subst t'. fold ascii in Fl. rewrite EL in Fl. specialize (Fl HB out Eo).
  set (dir := if isDir then directory else parentPath argv0) in *.
  exists l, dir. eexists. exists out, d. split.
  { unfold runMain. rewrite HJ. cbn [bind]. rewrite EC. cbn [bind]. rewrite Edir, Ecv. reflexivity. }
  split; [unfold dir; destruct isDir; [left; auto|right; split; [reflexivity|apply parentPath_spec]]|].
  split; [apply inDirectory_path|]. split; [exact Fl|]. split; [exact Ld|]. split; [exact Er|].
  assert (HD : dfont d = jobName j /\ dheight d = Z.quot height 64).
  { assert (Q : forall c, In c (font_codes firstChar (lastChar ascii)) -> rendered_ok (render (u c))) by (intros x Hx; apply Hr; apply font_codes_in in Hx; tauto).
    rewrite EL in F. assert (Hall : Forall (fun d : glyphData => glyph_typed (fst d) /\ bytes (snd d) /\ goff (fst d) = zlen (snd d)) t).
    { clear -F Q. induction F as [|x dd codes t Hx F IH]; constructor; [|apply IH; intros y Hy; apply Q; right; exact Hy].
      destruct (entry_of_holds _ _ (Q x (or_introl eq_refl)) Hx) as (A & B & _). destruct Hx as (_ & _ & _ & _ & _ & D6 & _ & D8 & _). rewrite D6, D8. auto. }
    assert (Hsize : zlen (bitmapsFile t) = total (map (fun c => rsize (render (u c))) (font_codes firstChar (lastChar ascii)))).
    { unfold bitmapsFile. rewrite concat_len, map_map. clear -F.
      induction F as [|x dd codes t Hx _ IH]; cbn [map total]; [reflexivity|]. destruct Hx as (_ & _ & _ & _ & _ & _ & _ & H & _). rewrite H, IH. reflexivity. }
    assert (HLn : zlen t = (if ascii then 95 else 191)) by (unfold zlen; rewrite <- (Forall2_len _ _ _ F); destruct ascii; reflexivity).
    destruct (C63_header (fun _ => utf) junk (jobName j) ascii t firstChar (lastChar ascii) (Z.quot height 64) HW HO Hid Hn Hall HLn ltac:(lia)) as (out2 & Eo2 & Er2);
      [unfold is_byte, firstChar; lia|unfold is_byte, lastChar; destruct ascii; lia|exact Hh|].
    rewrite Eo in Eo2. apply Ok_inj in Eo2. subst out2. rewrite Er in Er2. injection Er2 as ->. split; reflexivity. }
  split; [exact (proj1 HD)|]. split; [exact (proj2 HD)|]. rewrite EL. exact Htext.
Qed.
Print Assumptions C74_header.
(** With -b: two files, all bitmaps one after the other, and seven bytes per character that tell its
    metrics and where its bitmap starts (modulo 65536). *)
Theorem C74_binary : forall w sg junk argv0 args items e j directory isDir ucs utf render height u,
  startMain sg args = Ok (Converts j) -> jobBinary j = true ->
  command_line args items e -> last_given 111 (settings items e) [] directory ->
  steady w (jobEncoding j) isDir ucs utf render height -> single_byte (fun _ => ucs) u ->
  (forall c, firstChar <= c <= jobLast j -> rendered_ok (render (u c))) ->
  exists l dir p1 p2 t records,
    runMain w sg junk argv0 args = Ok (Exit 0, l) /\
    (isDir = true /\ dir = directory \/ isDir = false /\ directory_of argv0 dir) /\
    path_in dir (jobName j ++ txt "Bitmaps.bin") p1 /\ path_in dir (jobName j ++ txt "Glyphs.bin") p2 /\
    files l = [(p1, concat (map snd t)); (p2, concat records)] /\ loaded l = map u (font_codes firstChar (jobLast j)) /\
    Forall2 (fun c d => holds (render (u c)) d) (font_codes firstChar (jobLast j)) t /\
    zlen records = zlen t /\
    forall k d, nth_error t k = Some d -> exists r, nth_error records k = Some r /\ zlen r = 7 /\
      read_glyph r = mkGlyph (total (map (fun d => zlen (snd d)) (firstn k t)) mod 65536) (gw (fst d)) (gh (fst d)) (gshift (fst d)) (gox (fst d)) (goy (fst d)).
Proof.
  intros w sg junk argv0 args items e j directory isDir ucs utf render height u HJ HB HC Hd HS Hu Hr.
  destruct (job_parts sg args j HJ) as (c & EC & HL). pose proof (job_directory sg args j c items e directory HJ EC HC Hd) as Edir.
  destruct (convert_steady w isDir ucs utf render height u junk argv0 directory j HS Hu HL Hr) as (t & l & Ecv & F & ET & Ld & Fl & _).
  { intros X. congruence. }
  { intros t _ _ X. congruence. }
  specialize (Fl HB). set (dir := if isDir then directory else parentPath argv0) in *.
  exists l, dir. eexists _, _. exists t, (map glyphBytes (binaryGlyphs 0 t)). split.
  { unfold runMain. rewrite HJ. cbn [bind]. rewrite EC. cbn [bind]. rewrite Edir, Ecv. reflexivity. }
  split; [unfold dir; destruct isDir; [left; auto|right; split; [reflexivity|apply parentPath_spec]]|].
  split; [apply inDirectory_path|]. split; [apply inDirectory_path|]. split; [exact Fl|]. split; [exact Ld|]. split; [exact F|].
  split; [unfold zlen; rewrite map_length, binaryGlyphs_len; reflexivity|].
  intros k d Ek. assert (Ty : glyph_typed (fst d)).
  { assert (Q : forall c, In c (font_codes firstChar (jobLast j)) -> rendered_ok (render (u c))) by (intros x Hx; apply Hr; apply font_codes_in in Hx; tauto).
    clear -F Q Ek. revert k Ek. induction F as [|x dd codes t Hx F IH]; intros k Ek; [destruct k; discriminate|]. destruct k as [|k]; cbn [nth_error] in Ek.
    - injection Ek as <-. exact (proj1 (entry_of_holds _ _ (Q x (or_introl eq_refl)) Hx)).
    - apply (IH ltac:(intros y Hy; apply Q; right; exact Hy) k Ek). }
  exists (glyphBytes (mkGlyph (total (map (fun d => zlen (snd d)) (firstn k t)) mod 65536) (gw (fst d)) (gh (fst d)) (gshift (fst d)) (gox (fst d)) (goy (fst d)))).
  split; [erewrite map_nth_error; [reflexivity|rewrite (binaryGlyphs_nth t 0 k d) by (try exact Ek; lia); reflexivity]|]. split; [reflexivity|].
  apply read_glyphBytes. unfold glyph_typed in *. cbn [goff gw gh gshift gox goy]. split; [apply Z.mod_pos_bound; lia|tauto].
Qed.
Print Assumptions C74_binary.
Example C74_case :
  let w := someWorld (fun _ _ => true) in
  let utf := fun i => match i with [c] => Converted [63] | _ => IconvError end in
  let ucs := fun i => match i with [c] => Converted [c; 0; 0; 0] | _ => IconvError end in
  steady w asciiName true ucs utf (fun _ => ringch) 320 /\ rendered_ok ringch /\
  (exists l p out, runMain w true [] (txt "c") ringArgs = Ok (Exit 0, l) /\ files l = [(p, out)] /\ p = txt "out/Ring4pt7b.h" /\
     read_header out = Some (mkDeclared (txt "Ring4pt7b") (concat (repeat [252; 126] 95)) (map (fun k => mkGlyph (2 * k) 5 3 6 0 (-3)) (count_up 95 0)) 32 126 5)) /\
  exists l, runMain w true [] (txt "c") (txt "-b" :: ringArgs) = Ok (Exit 0, l) /\ map fst (files l) = [txt "out/Ring4pt7bBitmaps.bin"; txt "out/Ring4pt7bGlyphs.bin"].
Proof.
  split; [|split; [exact (proj1 C41_case)|split]].
  - intros l. repeat split. all: intros [|c [|]]; reflexivity.
  - eexists _, _, _. split; [vm_compute; reflexivity|]. split; [vm_compute; reflexivity|]. split; vm_compute; reflexivity.
  - eexists. split; vm_compute; reflexivity.
Qed.
