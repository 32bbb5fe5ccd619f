(** Properties C44, C58 and C59 (text written by the font converter). *)
From Coq Require Import String Ascii.
From Verif Require Import Base S_BufferedOut S_Font S_Packing S_FontText M_BufferedOut M_Font M_FontData M_FontFile M_Packing M_FontText L_FontText.
Open Scope Z_scope.
Open Scope list_scope.

(** C44: the bitmap array. *)
Definition writeArray (name bs f : list Z) : res (list Z) :=
  do h <- openHex name f; do h <- putHexAll bs h; closeHex h.
Theorem C44_array : forall name bs f,
  bytes bs -> zlen bs < 2147483648 ->
  writeArray name bs f = Ok (f ++ firstn 1024 (array_head name) ++ byte_literals 0 bs ++ array_tail).
Proof.
  intros name bs f HB HL. unfold writeArray. destruct (openHex_ok name f) as [h [E [O C]]]. rewrite E. cbn [bind].
  destruct (putHexAll_ok bs h 0 O HB) as [h2 [E2 [O2 C2]]]; [lia|]. rewrite E2. cbn [bind].
  rewrite (closeHex_ok h2 _ O2), C2, C, <- !app_assoc. reflexivity.
Qed.
Print Assumptions C44_array.
(** the first line is complete for names of up to 996 characters *)
Theorem C44_head : forall name, zlen name <= 996 <-> firstn 1024 (array_head name) = array_head name.
Proof.
  intros name. assert (HL : List.length (array_head name) = (28 + List.length name)%nat).
  { unfold array_head. rewrite !app_length. cbn [txt List.length]. lia. }
  unfold zlen. split; intros H.
  - apply firstn_all2. lia.
  - apply (f_equal (@List.length Z)) in H. rewrite firstn_length, HL in H. lia.
Qed.
Print Assumptions C44_head.
(** reading the literals gives the bytes back *)
Theorem C44_read_back : forall bs, bytes bs -> read_literals (byte_literals 0 bs ++ array_tail) = bs.
Proof. intros bs. apply read_back. Qed.
Print Assumptions C44_read_back.
(** the byte counter is an int: from 2^31 bytes on it overflows *)
Theorem C44_limit : forall name bs f, bytes bs -> 2147483648 <= zlen bs -> writeArray name bs f = UB.
Proof.
  intros name bs f HB HL. unfold writeArray. destruct (openHex_ok name f) as [h [E [O C]]]. rewrite E. cbn [bind].
  set (n := Z.to_nat 2147483647). pose proof (firstn_skipn n bs) as HS. pose proof (firstn_length n bs) as HF.
  assert (HN : zlen (firstn n bs) = 2147483647) by (unfold zlen in *; lia).
  destruct (skipn n bs) as [|b rest] eqn:ES; [rewrite app_nil_r in HS; rewrite HS in HN; lia|].
  rewrite <- HS in HB. pose proof (proj1 (proj1 (Forall_app _ _ _) HB)) as HB1. pose proof (Forall_inv (proj2 (proj1 (Forall_app _ _ _) HB))) as Hb.
  rewrite <- HS, putHexAll_app. destruct (putHexAll_ok (firstn n bs) h 0 O HB1) as [h2 [E2 [O2 _]]]; [lia|]. rewrite E2. cbn [bind putHexAll].
  rewrite HN, Z.add_0_l in O2. rewrite (putHex_limit b h2 O2 Hb). reflexivity.
Qed.
Print Assumptions C44_limit.
Example C44_case :
  bytes [0; 171; 255] /\
  writeArray (txt "F") [0; 171; 255] [] = Ok (txt "const uint8_t FBitmaps[] = {
  0x00, 0xAB, 0xFF };

").
Proof. split; [repeat constructor; unfold is_byte; lia|vm_compute; reflexivity]. Qed.

(** C58: the glyph table. *)
Definition writeGlyphs (iconv : nat -> list Z -> iconvResult) (junk name : list Z) (ascii : bool) (l : list glyph) (f : list Z) : res (list Z) :=
  do t <- putGlyphs iconv junk l (openGlyphs name ascii f); closeGlyphs t.
Theorem C58_table : forall iconv junk name (ascii : bool) l f,
  whole_bytes iconv -> Forall glyph_typed l -> zlen l <= (if ascii then 95 else 191) ->
  exists lines,
    glyph_lines iconv (if ascii then 126 else 255) 0 (font_codes 32 (if ascii then 126 else 255)) l lines /\
    writeGlyphs iconv junk name ascii l f = Ok (f ++ table_head name ++ concat lines ++ [10]).
Proof.
  intros iconv junk name ascii l f HI Hg HL. unfold writeGlyphs. destruct (openGlyphs_ok name ascii f) as [O C].
  assert (H126 : 126 <= (if ascii then 126 else 255) <= 255) by (destruct ascii; lia).
  assert (T0 : textOffset (openGlyphs name ascii f) = 0) by reflexivity.
  destruct (putGlyphs_ok iconv junk _ HI H126 l _ _ O Hg) as [t [lines [E [O1 [U1 [C1 G1]]]]]].
  { unfold zlen in HL. destruct ascii; cbn [List.length]; [change (List.length (font_codes 32 126)) with 95%nat|change (List.length (font_codes 32 255)) with 191%nat]; lia. }
  { lia. }
  { rewrite T0. destruct ascii; lia. }
  exists lines. split; [exact G1|]. rewrite E. cbn [bind]. rewrite closeGlyphs_ok by assumption. rewrite C1, C, <- !app_assoc. reflexivity.
Qed.
Print Assumptions C58_table.
(** so there is one line per glyph, numbered by the stored codes *)
Theorem C58_lines : forall iconv last cs l lines off k g c,
  glyph_lines iconv last off cs l lines -> nth_error l k = Some g -> nth_error cs k = Some c ->
  zlen lines = zlen l /\
  exists x, nth_error lines k = Some x /\ glyph_line iconv (off + total (map goff (firstn k l))) c (c =? last) g x.
Proof.
  intros iconv last cs l lines off k g c H. assert (HL : zlen lines = zlen l).
  { revert cs lines off H. induction l as [|g0 l IH]; intros [|c0 cs] [|x lines] off H; cbn [glyph_lines] in H; try contradiction; try reflexivity.
    rewrite !zlen_cons, (IH cs lines _ (proj2 H)). reflexivity. }
  intros Eg Ec. split; [exact HL|]. clear HL. revert k cs lines off H Eg Ec.
  induction l as [|g0 l IH]; intros [|k] [|c0 cs] [|x lines] off H Eg Ec; try discriminate; cbn [glyph_lines] in H; try contradiction; cbn [nth_error] in *.
  - injection Eg as ->. injection Ec as ->. exists x. cbn [firstn map total]. rewrite Z.add_0_r. split; [reflexivity|exact (proj1 H)].
  - destruct (IH k cs lines (off + goff g0) (proj2 H) Eg Ec) as [y [Ey Gy]]. exists y. split; [exact Ey|]. cbn [firstn map total].
    rewrite Z.add_assoc. exact Gy.
Qed.
Print Assumptions C58_lines.
(** the offset is shown whole below 100000 *)
Theorem C58_offset : forall n out, offset_column n out -> 0 <= n < 100000 -> right_aligned 5 n out.
Proof.
  intros n out [t [Ht [H1 [H2 H3]]]] Hn.
  assert (HL : zlen t <= 5).
  { pose proof (L_Decimal.dec_text_unique _ _ _ Ht (L_Decimal.decimal_text n)) as ->. apply decimal_len; lia. }
  destruct (H2 HL) as [pad [E F]]. exists t, pad. auto.
Qed.
Print Assumptions C58_offset.
(** the font structure *)
Theorem C58_struct : forall name first last height junk,
  zlen name <= 300 -> is_byte first -> is_byte last -> - 2147483648 <= height < 2147483648 ->
  exists out, fontStruct name first last height junk = Ok out /\ struct_text name first last height out.
Proof. exact fontStruct_ok. Qed.
Print Assumptions C58_struct.
(** the whole file *)
Theorem C58_file : forall iconv junk name (ascii : bool) t first last height,
  whole_bytes iconv -> Forall (fun d => glyph_typed (fst d) /\ bytes (snd d)) t -> zlen t <= (if ascii then 95 else 191) ->
  zlen name <= 300 -> is_byte first -> is_byte last -> - 2147483648 <= height < 2147483648 -> zlen (bitmapsFile t) < 2147483648 ->
  exists lines st,
    glyph_lines iconv (if ascii then 126 else 255) 0 (font_codes 32 (if ascii then 126 else 255)) (map fst t) lines /\
    struct_text name first last height st /\
    headerFile iconv junk name ascii t first last height =
      Ok (array_head name ++ byte_literals 0 (bitmapsFile t) ++ array_tail ++ table_head name ++ concat lines ++ [10] ++ st).
Proof.
  intros iconv junk name ascii t fst0 lst height HI Ht HL Hn Hf Hl Hh Hb. unfold headerFile.
  assert (HB : bytes (bitmapsFile t)).
  { unfold bitmapsFile, bytes. apply Forall_concat. apply Forall_map. eapply Forall_impl; [|exact Ht]. intros d [_ H]. exact H. }
  pose proof (C44_array name (bitmapsFile t) [] HB Hb) as EA. rewrite (proj1 (C44_head name)) in EA by lia. unfold writeArray in EA. cbn [app] in EA. fold (bitmapsFile t).
  destruct (openHex name []) as [h| |]; try discriminate. cbn [bind] in *. destruct (putHexAll (bitmapsFile t) h) as [h2| |]; try discriminate. cbn [bind] in *.
  rewrite EA. cbn [bind].
  destruct (C58_table iconv junk name ascii (map fst t) (array_head name ++ byte_literals 0 (bitmapsFile t) ++ array_tail) HI) as [lines [G E]].
  { apply Forall_map. eapply Forall_impl; [|exact Ht]. intros d [H _]. exact H. }
  { unfold zlen in *. rewrite map_length. exact HL. }
  unfold writeGlyphs in E.
  destruct (putGlyphs iconv junk (map fst t) (openGlyphs name ascii (array_head name ++ byte_literals 0 (bitmapsFile t) ++ array_tail))) as [g| |]; try discriminate. cbn [bind] in *.
  rewrite E. cbn [bind]. destruct (C58_struct name fst0 lst height junk Hn Hf Hl Hh) as [st [ES SS]]. rewrite ES. cbn [bind].
  exists lines, st. split; [exact G|]. split; [exact SS|]. rewrite <- !app_assoc. reflexivity.
Qed.
Print Assumptions C58_file.
Example C58_case :
  let latin1 := fun (_ : nat) l => match l with [c] => Converted [0xC2 + (c - 128) / 64; 128 + c mod 64] | _ => IconvError end in
  let g := mkGlyph 7 5 12 9 (-1) (-12) in
  whole_bytes latin1 /\ glyph_typed g /\
  writeGlyphs latin1 [] (txt "F") false [g; g] [] = Ok (txt "const GFXglyph FGlyphs[] = {
  {     0, {   5,  12 },   9, {   -1,  -12 } },   // 0x20 ' '
  {     7, {   5,  12 },   9, {   -1,  -12 } },   // 0x21 '!'

") /\
  (do s <- fontStruct (txt "F") 32 255 35 []; Ok s) = Ok (txt "const GFXfont F = {
  FBitmaps,
  FGlyphs,
  0x20, 0xFF, 35 };
").
Proof.
  split; [|split; [unfold glyph_typed; cbn; lia|split; vm_compute; reflexivity]].
  intros n c. split; [discriminate|]. intros o E. injection E as <-. cbn. lia.
Qed.

(** C59: the shipped font header is what the converter writes for the tables in it. *)
Definition table_of (f : font) : list glyphData :=
  map (fun g => (mkGlyph ((gw g * gh g + 7) / 8) (gw g) (gh g) (gshift g) (gox g) (goy g),
                 slice (bitmap f) (goff g) ((gw g * gh g + 7) / 8))) (glyphs f).
Theorem C59_header : forall iconv junk, exists out,
  headerFile iconv junk (txt "FreeSans15pt7b") true (table_of FreeSans15pt7b) 32 126 35 = Ok out /\
  txt FreeSans15pt7b_h = out ++ [10].
Proof. intros iconv junk. eexists. split; [vm_compute; reflexivity|vm_compute; reflexivity]. Qed.
Print Assumptions C59_header.
(** and its tables are what the converter writes in binary form *)
Theorem C59_binary :
  bitmapsFile (table_of FreeSans15pt7b) = bitmap FreeSans15pt7b /\
  binaryGlyphs 0 (table_of FreeSans15pt7b) = glyphs FreeSans15pt7b.
Proof. split; vm_compute; reflexivity. Qed.
Print Assumptions C59_binary.
(** reading the numbers of the shipped text gives the bytes of its bitmap table *)
Theorem C59_bytes : exists rest,
  txt FreeSans15pt7b_h = array_head (txt "FreeSans15pt7b") ++ byte_literals 0 (bitmap FreeSans15pt7b) ++ array_tail ++ rest /\
  read_literals (byte_literals 0 (bitmap FreeSans15pt7b) ++ array_tail) = bitmap FreeSans15pt7b.
Proof.
  eexists (skipn (List.length (array_head (txt "FreeSans15pt7b") ++ byte_literals 0 (bitmap FreeSans15pt7b) ++ array_tail)) (txt FreeSans15pt7b_h)).
  split; vm_compute; reflexivity.
Qed.
Print Assumptions C59_bytes.
