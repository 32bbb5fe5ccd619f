(** What the PBM files of the tests are: spaces, lines, pixel characters, sizes. *)
From Verif Require Import Base S_BufferedOut S_Graphics.

(** the bytes an image of [w] x [h] pixels takes when its rows follow each other without padding *)
Definition image_bytes (w h : Z) : Z := (w * h + 7) / 8.
(** the bytes one row takes when every row begins in a new byte *)
Definition row_bytes (w : Z) : Z := (w + 7) / 8.
(** sizes of a non-empty picture whose number of pixels, rounded up, is an [int] *)
Definition picture_size (w h : Z) : Prop := 0 < w /\ 0 < h /\ w * h + 7 <= 2147483647.

(** white space: blank, tab, line feed, vertical tab, form feed, carriage return *)
Definition space (c : Z) : Prop := In c [32; 9; 10; 11; 12; 13].
Definition spaces (l : list Z) : Prop := l <> [] /\ Forall space l.
(** the magic numbers of a text and of a binary picture *)
Definition P1 : list Z := [80; 49].
Definition P4 : list Z := [80; 52].
(** a header: magic number, width and height, apart by white space, and one end of line *)
Definition header_line (magic : list Z) (w h : Z) (t : list Z) : Prop :=
  exists s0 s1 s2 tw th, Forall space s0 /\ spaces s1 /\ spaces s2 /\ dec_text w tw /\ dec_text h th /\
    t = s0 ++ magic ++ s1 ++ tw ++ s2 ++ th.
Definition header (magic : list Z) (w h : Z) (t : list Z) : Prop :=
  exists l, header_line magic w h l /\ t = l ++ [10].

(** a number as C++ streams read an [int]: perhaps a sign, then digits *)
Definition int_text (n : Z) (t : list Z) : Prop :=
  -2147483648 <= n <= 2147483647 /\ exists ds, ds <> [] /\ Forall is_digit ds /\
  (n = horner 0 ds /\ (t = ds \/ t = 43 :: ds) \/ n = - horner 0 ds /\ t = 45 :: ds).
(** what is accepted as a header: as above, but with such numbers, and a signed height may follow the width at once *)
Definition read_as_header (magic : list Z) (w h : Z) (t : list Z) : Prop :=
  exists s0 s1 s2 tw th, Forall space s0 /\ spaces s1 /\ Forall space s2 /\ int_text w tw /\ int_text h th /\
    (s2 = [] -> ~ is_digit (nthZ th 0)) /\ t = s0 ++ magic ++ s1 ++ tw ++ s2 ++ th ++ [10].
(** sizes whose product is positive and, rounded up, an [int] *)
Definition read_size (w h : Z) : Prop := 0 < w * h /\ w * h + 7 <= 2147483647.

(** the lines [ls] as a text: an end of line after each, but perhaps not after the last *)
Definition no_eol (l : list Z) : Prop := ~ In 10 l.
Definition text_of (ls : list (list Z)) (t : list Z) : Prop :=
  Forall no_eol ls /\
  (t = flat_map (fun l => l ++ [10]) ls \/
   exists ls' l, ls = ls' ++ [l] /\ l <> [] /\ t = flat_map (fun l => l ++ [10]) ls' ++ l).

(** a line that can hold pixels: not empty, not a comment *)
Definition data_line (l : list Z) : bool := match l with [] => false | c :: _ => negb (c =? 35) end.
(** its pixels: '1' is a set pixel, '0' a clear one, anything else is skipped *)
Definition pixel_char (c : Z) : bool := (c =? 48) || (c =? 49).
Definition line_pixels (l : list Z) : list bool := map (fun c => c =? 49) (filter pixel_char l).
Definition pixels_of (ls : list (list Z)) : list bool := flat_map line_pixels (filter data_line ls).
(** a line that begins with a pixel although the lines before it already hold all pixels of [n] bytes *)
Definition overrun (n : Z) (ls : list (list Z)) : Prop :=
  exists before c l after, ls = before ++ (c :: l) :: after /\ pixel_char c = true /\
    8 * n <= zlen (pixels_of before).

(** [img] holds [n] bytes: the given pixels in order, then clear ones *)
Definition picture (n : Z) (px : list bool) (img : list Z) : Prop :=
  zlen img = n /\ bytes img /\
  forall i, 0 <= i < 8 * n -> img_bit img i = nth (Z.to_nat i) px false.
(** the first [n] bytes of [data], filled up with zeros *)
Definition fitted (n : Z) (data img : list Z) : Prop :=
  zlen img = n /\ forall i, 0 <= i < n -> nthZ img i = nthZ data i.

(** [t] is a text picture of [w] x [h] pixels: a header and [h] lines with [w] pixels each *)
Definition text_picture (w h : Z) (ls : list (list Z)) (t : list Z) : Prop :=
  exists hd, header P1 w h hd /\ t = hd ++ flat_map (fun l => l ++ [10]) ls /\ zlen ls = h /\
    Forall (fun l => no_eol l /\ data_line l = true /\ zlen (line_pixels l) = w) ls.
(** pixel number [x] of line number [y] *)
Definition shown (ls : list (list Z)) (p : Z * Z) : bool :=
  nth (Z.to_nat (fst p)) (line_pixels (nth (Z.to_nat (snd p)) ls [])) false.
