(** Properties C65, C66: the PBM pictures of the tests. *)
From Verif Require Import Base S_BufferedOut S_Graphics S_Packing S_Pbm M_BufferedOut M_Pbm L_Decimal L_Packing L_Pbm.

(** C66: what [readPBM] makes of a text picture: the pixels of its data lines in order, then clear
    ones; and when it writes outside the image. *)
Theorem C66_text_picture : forall w h hd ls t, read_size w h -> read_as_header P1 w h hd -> text_of ls t ->
  (overrun (image_bytes w h) ls -> readPBM (hd ++ t) = UB) /\
  (~ overrun (image_bytes w h) ls ->
     exists img, readPBM (hd ++ t) = Ok (Some (w, h, img)) /\ picture (image_bytes w h) (pixels_of ls) img).
Proof.
  intros w h hd ls t Hp Hh Ht. destruct (readPBM_text w h hd ls t Hp Hh Ht) as [[O E]|[O E]].
  - split; [intros _; exact E|contradiction].
  - split; [contradiction|intros _; exact E].
Qed.
Print Assumptions C66_text_picture.

Theorem C66_binary_picture : forall w h hd t, read_size w h -> read_as_header P4 w h hd ->
  exists img, readPBM (hd ++ t) = Ok (Some (w, h, img)) /\ fitted (image_bytes w h) t img.
Proof. exact readPBM_binary. Qed.
Print Assumptions C66_binary_picture.

(** the raster of a binary PBM file begins every row in a new byte: all of it is read only if this
    needs no more bytes than the pixels do *)
Theorem C66_padded_rows : forall w h hd t, picture_size w h -> read_as_header P4 w h hd -> zlen t = h * row_bytes w ->
  (readPBM (hd ++ t) = Ok (Some (w, h, t)) <-> image_bytes w h = h * row_bytes w).
Proof.
  intros w h hd t Hp Hh HL. destruct (readPBM_binary w h hd t (size_read w h Hp) Hh) as (img & E & F). rewrite E. split.
  - intros X. apply Ok_inj in X. injection X as ->. destruct F as [F _]. congruence.
  - intros X. rewrite (fitted_self _ t img) with (2 := F) by congruence. reflexivity.
Qed.
Print Assumptions C66_padded_rows.

(** any other file is rejected: one without such a header, ... *)
Theorem C66_rejects : forall t,
  (forall magic w h hd r, magic = P1 \/ magic = P4 -> read_as_header magic w h hd -> t <> hd ++ r) -> readPBM t = Ok None.
Proof.
  intros t H. destruct (readPBM_other t) as [(magic & w & h & hd & r & Hm & Hh & E)|E]; [|exact E].
  destruct (H magic w h hd r Hm Hh E).
Qed.
Print Assumptions C66_rejects.
(** ... and one without pixels; sizes that are too large have undefined behaviour *)
Theorem C66_sizes : forall magic w h hd t, magic = P1 \/ magic = P4 -> read_as_header magic w h hd ->
  (-2147483648 <= w * h <= 0 -> readPBM (hd ++ t) = Ok None) /\
  (w * h < -2147483648 \/ 2147483647 < w * h + 7 -> readPBM (hd ++ t) = UB).
Proof.
  intros magic w h hd t Hm Hh. rewrite (readPBM_read_as magic w h hd t Hm Hh). unfold chk. split.
  - intros H. rewrite (proj2 (in_int_true _)) by (unfold INT_MIN, INT_MAX; lia). cbn [bind]. rewrite (proj2 (in_int_true _)) by (unfold INT_MIN, INT_MAX; lia). cbn [bind].
    replace (Z.quot (w * h + 7) 8 <=? 0) with true; [reflexivity|]. symmetry. apply Z.leb_le.
    pose proof (Z.quot_le_mono (w * h + 7) 7 8 ltac:(lia) ltac:(lia)) as Q. exact Q.
  - intros H. destruct (in_int (w * h)) eqn:E; [|reflexivity]. cbn [bind]. destruct (in_int (w * h + 7)) eqn:E2; [|reflexivity].
    apply in_int_true in E, E2. unfold INT_MIN, INT_MAX in *. lia.
Qed.
Print Assumptions C66_sizes.

Theorem C66_any_file : forall t w h img, bytes t -> readPBM t = Ok (Some (w, h, img)) ->
  0 < w * h + 7 /\ zlen img = image_bytes w h /\ 0 < zlen img /\ bytes img.
Proof. exact readPBM_sound. Qed.
Print Assumptions C66_any_file.

Theorem C66_compare : forall file data w h, comparePBM file data w h = Ok true <-> readPBM file = Ok (Some (w, h, data)).
Proof. exact comparePBM_true. Qed.
Print Assumptions C66_compare.

(** a picture with a comment, a long line and a short one; the file of the second one begins a line
    after the image is full *)
Example C66_case :
  let hd := [80; 49; 10; 51; 32; 52; 10] in
  let l1 := [35; 49] in let l2 := [49; 32; 48; 49; 49; 48; 48; 48; 48; 49; 120; 49] in let l3 := [49; 49] in
  let text ls := flat_map (fun l => l ++ [10]) ls in
  read_as_header P1 3 4 hd /\ read_size 3 4 /\ text_of [l1; l2; l3] (text [l1; l2; l3]) /\
  ~ overrun 2 [l1; l2; l3] /\ overrun 2 [l2; l2; l3] /\
  readPBM (hd ++ text [l1; l2; l3]) = Ok (Some (3, 4, [176; 240])) /\
  readPBM (hd ++ text [l2; l2; l3]) = UB /\
  readPBM ([80; 52; 10; 57; 32; 50; 10] ++ [1; 2; 3; 4]) = Ok (Some (9, 2, [1; 2; 3])) /\
  readPBM ([80; 52; 10; 57; 32; 50; 10] ++ [1]) = Ok (Some (9, 2, [1; 0; 0])) /\
  readPBM ([80; 52; 10; 57; 32; 50; 32; 10] ++ [1; 2; 3]) = Ok None /\
  readPBM ([80; 52; 10; 43; 57; 43; 50; 10] ++ [1; 2; 3]) = Ok (Some (9, 2, [1; 2; 3])) /\
  read_as_header P4 (-9) (-2) [80; 52; 10; 45; 57; 45; 50; 10] /\ read_size (-9) (-2) /\
  readPBM ([80; 52; 10; 45; 57; 45; 50; 10] ++ [1; 2; 3]) = Ok (Some (-9, -2, [1; 2; 3])).
Proof.
  cbv zeta. split; [apply header_read; [change (header magicP1 3 4 (pbmHeader magicP1 3 4)); apply pbmHeader_header|unfold picture_size; lia]|].
  split; [unfold read_size; lia|]. split.
  { split; [repeat constructor; unfold no_eol; cbn; intuition lia|left; reflexivity]. }
  split.
  { intros ([|b0 [|b1 [|b2 [|b3 b]]]] & c & l & after & E & Hc & HN); cbn [app] in E; inversion E; subst;
    try (vm_compute in HN; apply HN; reflexivity); try discriminate. }
  split; [exists [[49; 32; 48; 49; 49; 48; 48; 48; 48; 49; 120; 49]; [49; 32; 48; 49; 49; 48; 48; 48; 48; 49; 120; 49]], 49, [49], []; vm_compute; repeat split; discriminate|].
  do 6 (split; [vm_compute; reflexivity|]). split; [|split; [unfold read_size; lia|vm_compute; reflexivity]].
  exists [], [10], [], [45; 57], [45; 50]. split; [constructor|]. split; [split; [discriminate|constructor; [cbn; auto|constructor]]|]. split; [constructor|].
  split; [split; [lia|exists [57]; split; [discriminate|]; split; [constructor; [unfold is_digit; lia|constructor]|right; auto]]|].
  split; [split; [lia|exists [50]; split; [discriminate|]; split; [constructor; [unfold is_digit; lia|constructor]|right; auto]]|].
  split; [intros _; unfold is_digit; cbn; lia|reflexivity].
Qed.

(** C65: the two writers and the reader *)
Theorem C65_text : forall data w h, picture_size w h -> bytes data ->
  exists file ok, writePBM data w h = Ok (file, ok) /\
    (ok = true <-> h * row_bytes w <= zlen data) /\
    let late := exists k, 0 <= k < h /\ image_bytes w h <= k * row_bytes w < zlen data in
    (late -> readPBM file = UB) /\
    (~ late -> exists img, readPBM file = Ok (Some (w, h, img)) /\ fitted (image_bytes w h) data img).
Proof.
  intros data w h Hp Hb. destruct (writePBM_spec data w h Hp) as (t & E & T). eexists _, _. split; [exact E|].
  split; [apply Z.leb_le|]. intros late. destruct (writePBM_read data w h t Hp Hb T) as [[O R]|[O R]].
  - split; [intros _; exact R|contradiction].
  - split; [contradiction|intros _; exact R].
Qed.
Print Assumptions C65_text.

Theorem C65_binary : forall data w h, picture_size w h ->
  exists file img, writePBMBinary data w h = Ok (file, true) /\ readPBM file = Ok (Some (w, h, img)) /\
    fitted (image_bytes w h) data img.
Proof.
  intros data w h Hp. destruct (readPBM_binary w h _ (slice data 0 (image_bytes w h)) (size_read w h Hp) (header_read _ w h _ (pbmHeader_header magicP4 w h) Hp)) as (img & E & F).
  eexists _, img. split; [apply writePBMBinary_spec; exact Hp|]. split; [exact E|].
  apply fitted_slice with (2 := F). lia.
Qed.
Print Assumptions C65_binary.

(** a picture whose width is a multiple of 8, as a monochrome frame buffer's image: both files hold
    it, and comparing a file with anything else fails *)
Theorem C65_whole_bytes : forall data w h data' w' h', picture_size w h -> bytes data -> w mod 8 = 0 -> zlen data = image_bytes w h ->
  exists text binary, writePBM data w h = Ok (text, true) /\ writePBMBinary data w h = Ok (binary, true) /\
    (comparePBM text data' w' h' = Ok true <-> data' = data /\ w' = w /\ h' = h) /\
    (comparePBM binary data' w' h' = Ok true <-> data' = data /\ w' = w /\ h' = h).
Proof.
  intros data w h data' w' h' Hp Hb Hw HL. assert (HI : image_bytes w h = h * row_bytes w).
  { unfold image_bytes, row_bytes. rewrite (Z.div_mod w 8) by lia. rewrite Hw.
    replace ((8 * (w / 8) + 0) * h + 7) with (7 + (w / 8 * h) * 8) by lia. replace (8 * (w / 8) + 0 + 7) with (7 + w / 8 * 8) by lia.
    rewrite !Z.div_add by lia. change (7 / 8) with 0. lia. }
  destruct (C65_text data w h Hp Hb) as (text & ok & E1 & Hok & _ & R1).
  destruct (C65_binary data w h Hp) as (binary & img2 & E2 & R2 & F2).
  destruct R1 as (img1 & R1 & F1).
  { intros (k & Hk & H1 & H2). rewrite HL, HI in *. assert (0 < row_bytes w) by (unfold row_bytes; apply Z.div_str_pos; destruct Hp; lia). nia. }
  assert (ok = true) by (apply Hok; lia). subst ok.
  apply fitted_self in F1; [|exact HL]. apply fitted_self in F2; [|exact HL]. subst.
  exists text, binary. split; [exact E1|]. split; [exact E2|]. rewrite !C66_compare, R1, R2.
  split; (split; [intros E; apply Ok_inj in E; injection E as -> -> ->; auto|intros (-> & -> & ->); reflexivity]).
Qed.
Print Assumptions C65_whole_bytes.

(** sizes without pixels, and sizes that are too large *)
Theorem C65_no_pixels : forall data w h, -2147483648 <= w <= 2147483647 -> -2147483648 <= h <= 2147483647 ->
  (h <= 0 -> exists hd, header P1 w h hd /\ writePBM data w h = Ok (hd, true)) /\
  (0 < h -> w <= 0 -> exists hd, header P1 w h hd /\ writePBM data w h = Ok (hd ++ repeat 10 (Z.to_nat h), true)) /\
  (0 < h -> 2147483647 < w + 7 -> writePBM data w h = UB) /\
  (-15 < w * h <= 0 -> exists hd, header P4 w h hd /\ writePBMBinary data w h = Ok (hd, true)) /\
  (w * h <= -15 \/ 2147483647 < w * h + 7 -> writePBMBinary data w h = UB).
Proof.
  intros data w h Hw Hh. split; [|split; [|split; [|split]]].
  - intros H. exists (pbmHeader magicP1 w h). split; [apply pbmHeader_header|]. unfold writePBM. replace (h <=? 0) with true by lia. reflexivity.
  - intros H H0. exists (pbmHeader magicP1 w h). split; [apply pbmHeader_header|]. apply writePBM_blank; lia.
  - intros H H0. unfold writePBM, chk. replace (h <=? 0) with false by lia. destruct (in_int (w + 7)) eqn:E; [|reflexivity].
    apply in_int_true in E. unfold INT_MAX in E. lia.
  - intros H. exists (pbmHeader magicP4 w h). split; [apply pbmHeader_header|]. apply writePBMBinary_blank. exact H.
  - intros H. apply writePBMBinary_ub. exact H.
Qed.
Print Assumptions C65_no_pixels.
Example C65_no_pixels_case : writePBM [7] (-3) 2 = Ok ([80; 49; 10; 45; 51; 32; 50; 10; 10; 10], true) /\
  writePBMBinary [7] (-3) 2 = Ok ([80; 52; 10; 45; 51; 32; 50; 10], true) /\ writePBMBinary [7] (-5) 3 = UB.
Proof. repeat split; vm_compute; reflexivity. Qed.
(** the pictures that [writePBM] writes whole and [readPBM] cannot read: three rows of nine pixels *)
Theorem C65_text_refuted : exists data w h file, picture_size w h /\ bytes data /\ zlen data = h * row_bytes w /\
  writePBM data w h = Ok (file, true) /\ readPBM file = UB.
Proof.
  exists [1; 2; 3; 4; 5; 6], 9, 3, (fst (match writePBM [1; 2; 3; 4; 5; 6] 9 3 with Ok p => p | _ => ([], false) end)).
  split; [unfold picture_size; lia|]. split; [repeat constructor; unfold is_byte; lia|]. repeat split; vm_compute; reflexivity.
Qed.
Print Assumptions C65_text_refuted.

Example C65_case :
  picture_size 16 2 /\ zlen [129; 2; 3; 255] = image_bytes 16 2 /\
  (exists text, writePBM [129; 2; 3; 255] 16 2 = Ok (text, true) /\ readPBM text = Ok (Some (16, 2, [129; 2; 3; 255])) /\
     comparePBM text [129; 2; 3; 254] 16 2 = Ok false) /\
  (exists text, writePBM [129; 2; 3] 16 2 = Ok (text, false) /\ readPBM text = Ok (Some (16, 2, [129; 2; 3; 0]))) /\
  (exists text, writePBM [1; 2; 3; 4] 9 2 = Ok (text, true) /\ readPBM text = Ok (Some (9, 2, [1; 2; 3]))) /\
  (exists file, writePBMBinary [129; 10; 3; 255; 7] 16 2 = Ok (file, true) /\ readPBM file = Ok (Some (16, 2, [129; 10; 3; 255]))).
Proof.
  split; [unfold picture_size; lia|]. split; [reflexivity|].
  split; [eexists; split; [vm_compute; reflexivity|split; vm_compute; reflexivity]|].
  split; [eexists; split; [vm_compute; reflexivity|vm_compute; reflexivity]|].
  split; eexists; (split; [vm_compute; reflexivity|vm_compute; reflexivity]).
Qed.
