(** Properties C63 and C64 (the generated header read as C source; texts in a converted font). *)
From Coq Require Import String Ascii.
From Verif Require Import Base S_BufferedOut S_Graphics S_Paint S_Font S_TextRoom S_Packing S_FontText S_Header M_Geometry M_Canvas M_Font M_FontData M_FontFile M_Packing M_FontText
  L_Paint L_Font L_Packing L_Header L_ConvertText P_Font P_Packing P_FontText.
Open Scope Z_scope.
Open Scope list_scope.

(** C63: read as C source, the header declares the font: the bitmap and glyph tables of the binary
    output, the codes and the height. *)
Theorem C63_header : forall iconv junk name (ascii : bool) t first last height,
  whole_bytes iconv -> one_line iconv -> identifier name = true -> zlen name <= 300 ->
  Forall (fun d => glyph_typed (fst d) /\ bytes (snd d) /\ goff (fst d) = zlen (snd d)) t -> zlen t = (if ascii then 95 else 191) ->
  0 < zlen (bitmapsFile t) <= 65535 -> is_byte first -> is_byte last -> - 2147483648 <= height < 2147483648 ->
  exists out, headerFile iconv junk name ascii t first last height = Ok out /\
    read_header out = Some (mkDeclared name (bitmapsFile t) (binaryGlyphs 0 t) first last height).
Proof.
  intros iconv junk name ascii t fst0 lst height HW HO Hn Hn3 Ht HL Hb Hf Hl Hh.
  assert (Ht1 : Forall (fun d : glyphData => glyph_typed (fst d) /\ bytes (snd d)) t) by (eapply Forall_impl; [|exact Ht]; intros d [A [B _]]; split; assumption).
  destruct (C58_file iconv junk name ascii t fst0 lst height HW Ht1 ltac:(lia) Hn3 Hf Hl Hh ltac:(lia)) as [lines [st [HG [HS E]]]].
  eexists. split; [exact E|].
  assert (HT : zlen (bitmapsFile t) = total (map (fun d : glyphData => zlen (snd d)) t)) by (unfold bitmapsFile; rewrite concat_len, map_map; reflexivity).
  assert (HB : bytes (bitmapsFile t)).
  { unfold bitmapsFile, bytes. apply Forall_concat. apply Forall_map. eapply Forall_impl; [|exact Ht1]. intros d [_ H]. exact H. }
  assert (Eg : map goff (map fst t) = map (fun d : glyphData => zlen (snd d)) t).
  { clear -Ht. induction Ht as [|d t [_ [_ H]] _ IH]; cbn [map]; [reflexivity|]. rewrite H, IH. reflexivity. }
  rewrite <- (placed_binary t 0) by first [lia|eapply Forall_impl; [|exact Ht]; intros d [_ [_ H]]; exact H].
  destruct (bitmapsFile t) as [|b bs] eqn:Eb; [cbn in Hb; lia|].
  apply (read_header_text iconv name ascii b bs fst0 lst height (map fst t) lines st HO Hn HB Hf Hl HG).
  - unfold zlen in *. rewrite map_length. destruct ascii; exact HL.
  - intros g Hg. apply in_map_iff in Hg. destruct Hg as [d [<- Hd]]. rewrite Forall_forall in Ht. destruct (Ht d Hd) as [_ [_ H]]. rewrite H. apply zlen_nonneg.
  - rewrite Eg. lia.
  - exact HS.
Qed.
Print Assumptions C63_header.
(** a font file whose name is not an identifier gives a header that is not C *)
Definition one_pixel : list glyphData := repeat (mkGlyph 1 1 1 2 0 0, [128]) 95.
Theorem C63_name_refuted : exists iconv junk name t,
  whole_bytes iconv /\ one_line iconv /\ zlen name <= 300 /\ zlen t = 95 /\
  Forall (fun d => glyph_typed (fst d) /\ bytes (snd d) /\ goff (fst d) = zlen (snd d)) t /\ 0 < zlen (bitmapsFile t) <= 65535 /\
  exists out, headerFile iconv junk name true t 32 126 35 = Ok out /\ read_header out = None.
Proof.
  exists (fun _ _ => IconvError), [], (txt "DejaVu-Sans12pt7b"), one_pixel.
  split; [intros n c; split; [discriminate|intros o; discriminate]|]. split; [intros n c o; discriminate|]. split; [vm_compute; discriminate|]. split; [reflexivity|].
  split. { apply Forall_forall. intros d Hd. apply repeat_spec in Hd. subst d. split; [unfold glyph_typed; cbn; lia|]. split; [repeat constructor; unfold is_byte; lia|reflexivity]. }
  split; [vm_compute; split; [reflexivity|discriminate]|].
  eexists. split; vm_compute; reflexivity.
Qed.
Print Assumptions C63_name_refuted.
(** the shipped header *)
Theorem C63_shipped : read_header (txt FreeSans15pt7b_h) =
  Some (mkDeclared (txt "FreeSans15pt7b") (bitmap FreeSans15pt7b) (glyphs FreeSans15pt7b) (first FreeSans15pt7b) (last FreeSans15pt7b) 35).
Proof. vm_compute. reflexivity. Qed.
Print Assumptions C63_shipped.
Example C63_case : exists out, headerFile (fun _ _ => IconvError) [] (txt "Dot12pt7b") true one_pixel 32 126 35 = Ok out /\
  read_header out = Some (mkDeclared (txt "Dot12pt7b") (repeat 128 95) (map (fun k => mkGlyph k 1 1 2 0 0) (count_up 95 0)) 32 126 35).
Proof. eexists. split; vm_compute; reflexivity. Qed.

(** C64: render, convert, write the header, read it as C, draw a text with the font it declares: the
    rendered characters, one after the other. *)
Theorem C64_text : forall iconv u render iconv2 junk name ascii height,
  single_byte iconv u -> whole_bytes iconv2 -> one_line iconv2 -> identifier name = true -> zlen name <= 300 -> - 2147483648 <= height < 2147483648 ->
  (forall c, firstChar <= c <= lastChar ascii -> rendered_ok (render (u c))) ->
  0 < total (map (fun c => rsize (render (u c))) (font_codes firstChar (lastChar ascii))) <= 65535 ->
  exists t out d, completes (fun fuel => makeTable fuel iconv render firstChar (lastChar ascii)) t /\
    headerFile iconv2 junk name ascii t firstChar (lastChar ascii) height = Ok out /\ read_header out = Some d /\
    let f := mkFont (dbitmap d) (dglyphs d) (dfirst d) (dlast d) in
    forall sg text c pos,
      (forall b, In b text -> In b (font_codes firstChar (lastChar ascii)) /\ b <> lastChar ascii /\ own_value sg b) ->
      in_reach c pos (total (map rendered_advance (map (fun b => render (u b)) text))) ->
      paints c (fun fuel => drawStringAt fuel sg c f pos text) (rendered_text (map (fun b => render (u b)) text) pos).
Proof.
  intros iconv u render iconv2 junk name ascii height Hic HW HO Hn Hn3 Hh Hr Htot.
  set (codes := font_codes firstChar (lastChar ascii)) in *.
  assert (Hin : forall c, In c codes -> firstChar <= c <= lastChar ascii /\ ~ (127 <= c <= 159)) by (intros c; apply font_codes_in).
  assert (Hlast : firstChar <= lastChar ascii < 256) by (destruct ascii; cbn; unfold firstChar; lia).
  destruct (tableLoop_ok iconv u render codes newEncoder Hic) as [t [Et Ft]].
  { intros c Hc. apply Hin in Hc. unfold firstChar in Hc. lia. }
  { intros c Hc. apply Hr. apply Hin. exact Hc. }
  { split; [reflexivity|cbn; lia]. }
  { reflexivity. }
  assert (Hsize : zlen (bitmapsFile t) = total (map (fun c => rsize (render (u c))) codes)).
  { unfold bitmapsFile. rewrite concat_len, map_map. clear -Ft.
    induction Ft as [|c d codes t Hd _ IH]; cbn [map total]; [reflexivity|]. destruct Hd as [_ [_ [_ [_ [_ [_ [_ [H _]]]]]]]]. rewrite H, IH. reflexivity. }
  assert (Hall : Forall (fun d : glyphData => glyph_typed (fst d) /\ bytes (snd d) /\ goff (fst d) = zlen (snd d)) t).
  { assert (Q : forall c, In c codes -> rendered_ok (render (u c))) by (intros c Hc; apply Hr; apply Hin; exact Hc). clear -Ft Q.
    induction Ft as [|c d codes t Hd Ft IH]; constructor.
    - destruct (Q c (or_introl eq_refl)) as [R1 [R2 [_ [_ [_ [_ [R3 R4]]]]]]]. destruct Hd as [D1 [D2 [D3 [D4 [D5 [D6 [D7 [D8 _]]]]]]]].
      assert (0 <= rwidth (render (u c)) * rrows (render (u c)) <= 255 * 255) by nia.
      split; [|split; [exact D7|rewrite D6, D8; reflexivity]]. unfold glyph_typed. rewrite D1, D2, D3, D4, D5, D6. unfold rsize, u8. Z.div_mod_to_equations. lia.
    - apply IH. intros x Hx. apply Q. right. exact Hx. }
  assert (HL : zlen t = (if ascii then 95 else 191)).
  { unfold zlen. rewrite <- (Forall2_len _ _ _ Ft). unfold codes. destruct ascii; reflexivity. }
  destruct (C63_header iconv2 junk name ascii t firstChar (lastChar ascii) height HW HO Hn Hn3 Hall HL ltac:(lia)) as [out [Eo Er]];
    [unfold is_byte, firstChar; lia|unfold is_byte, firstChar in *; lia|exact Hh|].
  exists t, out. eexists. split.
  { exists 256%nat. intros fuel Hf. unfold makeTable. rewrite codeLoop_ok; [exact Et|left; unfold firstChar; lia|unfold firstChar in *; lia]. }
  split; [exact Eo|]. split; [exact Er|]. cbn [dbitmap dglyphs dfirst dlast]. set (f := mkFont (bitmapsFile t) (binaryGlyphs 0 t) firstChar (lastChar ascii)). intros sg text c pos Htext Hreach.
  destruct (stored_glyphs u render ascii t sg text Hr Ft ltac:(lia) Htext) as [gs [G1 [G2 [G3 G4]]]]. fold f in G1, G2, G4.
  assert (HT : font_typed f).
  { apply (table_font_typed codes (fun c => render (u c)) t firstChar (lastChar ascii)); [unfold firstChar; lia|unfold firstChar in *; lia|exact Ft|].
    intros x Hx. apply Hr. apply Hin. exact Hx. }
  eapply paints_ext; [|apply (C35_text sg c f pos text gs); [rewrite G3; exact Hreach|exact HT|exact G1|exact G2]].
  intros q. apply G4.
Qed.
Print Assumptions C64_text.
Example C64_case :
  let iconv := fun (_ : nat) l => match l with [c] => Converted [c; 0; 0; 0] | _ => IconvError end in
  single_byte iconv (fun c => c) /\ (forall c, rendered_ok ((fun _ : Z => ringch) c)) /\
  total (map (fun c => rsize ((fun _ : Z => ringch) c)) (font_codes firstChar (lastChar true))) = 190 /\
  (do t <- makeTable 300 iconv (fun _ => ringch) firstChar 126;
   do out <- headerFile (fun _ _ => IconvError) [] (txt "Ring4pt7b") true t firstChar 126 5;
   match read_header out with
   | Some d => show (drawStringAt 5 true board (mkFont (dbitmap d) (dglyphs d) (dfirst d) (dlast d)) (1, 4) [65; 66])
   | None => Fuel
   end) = Ok [0; 0; 0x7D; 0xF0; 0x45; 0x10; 0x7D; 0xF0; 0; 0; 0; 0; 0; 0; 0; 0].
Proof.
  split; [intros n c Hc; exists c, 0, 0, 0; split; [reflexivity|lia]|]. split; [intros _; exact (proj1 C41_case)|]. split; [reflexivity|]. vm_compute. reflexivity.
Qed.
