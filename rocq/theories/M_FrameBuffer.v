(** Model of graphics/SimpleFrameBuffer.h (and the interface graphics/FrameBufferBase.h).
    The template parameters [width], [height], [colorDepth] become fields.  The constructor leaves
    the pixel buffer uninitialised, so its initial content is an argument. *)
From Verif Require Import Base.

(** SimpleFrameBuffer.h:91, [effectiveWidth] ([int] division truncates) *)
Definition effectiveWidth (w d : Z) : Z := Z.quot (w * d) 8 * 8.
(** SimpleFrameBuffer.h:92, [bufferSize] *)
Definition bufferSize (w h d : Z) : Z := Z.quot (effectiveWidth w d * h * d) 8.

(** SimpleFrameBuffer.h:11-12 and 91-93: what a compiler accepts.  Besides the two static
    assertions, every constant expression must stay inside [int] ([1 << 31] is INT_MIN) and the
    array size must not be negative (width, height >= 0). *)
Definition valid_depth (d : Z) : bool := existsb (Z.eqb d) [1; 2; 4; 8; 16; 24; 32].
Definition pow_minus1 (d : Z) : Z := if d =? 32 then INT_MIN else 2 ^ (d - 1).
Definition accepted (w h d : Z) : bool :=
  (0 <=? w) && (0 <=? h) && valid_depth d &&
  in_int (w * pow_minus1 d) && (Z.rem (w * pow_minus1 d) 8 =? 0) &&
  in_int w && in_int h && in_int (w * d) && in_int (effectiveWidth w d) &&
  in_int (effectiveWidth w d * h) && in_int (effectiveWidth w d * h * d).

(** SimpleFrameBuffer.h:5-6, 93-94 *)
Record fb := mkFb { fw : Z; fh : Z; fd : Z; buf : list Z; selectedColor : Z }.
Definition set_buf (f : fb) (b : list Z) : fb := mkFb (fw f) (fh f) (fd f) b (selectedColor f).

(** [1 << d] for an [int]: UB when the count is 32 or more (or the result is not representable) *)
Definition shl1 (d : Z) : res Z := if (0 <=? d) && (d <? 31) then Ok (2 ^ d) else UB.

(** SimpleFrameBuffer.h:9-14, constructor; [init] is the indeterminate buffer content *)
Definition construct (w h d : Z) (init : list Z) : res fb :=
  do s <- shl1 d; Ok (mkFb w h d init (u32 (s - 1))).

(** SimpleFrameBuffer.h:15-16 *)
Definition getWidth (f : fb) : Z := effectiveWidth (fw f) (fd f).
Definition getHeight (f : fb) : Z := fh f.
(** SimpleFrameBuffer.h:17-18 *)
Definition getImage (f : fb) : list Z := buf f.

(** SimpleFrameBuffer.h:34-37, [setColor] *)
Definition setColor (f : fb) (color : Z) : res fb :=
  do s <- shl1 (fd f); Ok (mkFb (fw f) (fh f) (fd f) (buf f) (Z.land color (u32 (s - 1)))).

(** [c >> n] and [c << n] with an [int] count: UB for a negative count or one of 32 and more *)
Definition shr (c n : Z) : res Z := if (0 <=? n) && (n <? 32) then Ok (Z.shiftr c n) else UB.
Definition shl32 (c n : Z) : res Z := if (0 <=? n) && (n <? 32) then Ok (u32 (Z.shiftl c n)) else UB.

(** SimpleFrameBuffer.h:42-87: the [if constexpr] chain of [drawPixel(int, int, uint32_t)], with [off]
    the value of [pixelOffset] and [m] the buffer *)
Definition store_pixel (d : Z) (m : list Z) (off posX color : Z) : res (list Z) :=
  if d =? 1 then
    do mask <- shr 128 (Z.rem posX 8);
    do v <- rd m off;
    if negb (color =? 0) then wr m off (u8 (Z.lor v mask))
    else wr m off (u8 (Z.land v (Z.lnot mask)))
  else if d =? 2 then
    do mask <- shr 192 (Z.rem posX 4 * 2);
    do v <- rd m off;
    do m1 <- wr m off (u8 (Z.land v (Z.lnot mask)));
    do c <- shl32 (Z.land color 3) (2 - Z.rem posX 4 * 2);
    do v1 <- rd m1 off;
    wr m1 off (u8 (Z.lor v1 c))
  else if d =? 4 then
    do mask <- shr 240 (Z.rem posX 2 * 4);
    do v <- rd m off;
    do m1 <- wr m off (u8 (Z.land v (Z.lnot mask)));
    do c <- shl32 (Z.land color 15) (4 - Z.rem posX 2 * 4);
    do v1 <- rd m1 off;
    wr m1 off (u8 (Z.lor v1 c))
  else if d =? 8 then
    wr m off (u8 color)
  else if d =? 16 then
    do m1 <- wr m off (u8 (Z.shiftr color 8));
    wr m1 (off + 1) (Z.land color 255)
  else if d =? 24 then
    do m1 <- wr m off (u8 (Z.shiftr color 16));
    do m2 <- wr m1 (off + 1) (Z.land (Z.shiftr color 8) 255);
    wr m2 (off + 2) (Z.land color 255)
  else if d =? 32 then
    do m1 <- wr m off (u8 (Z.shiftr color 24));
    do m2 <- wr m1 (off + 1) (Z.land (Z.shiftr color 16) 255);
    do m3 <- wr m2 (off + 2) (Z.land (Z.shiftr color 8) 255);
    wr m3 (off + 3) (Z.land color 255)
  else Ok m.

(** SimpleFrameBuffer.h:39-88, [drawPixel(int, int, uint32_t)] *)
Definition drawPixel3 (f : fb) (posX posY color : Z) : res fb :=
  do a <- chk (posY * getWidth f);
  do b <- chk (a + posX);
  do e <- chk (b * fd f);
  do m <- store_pixel (fd f) (buf f) (Z.quot e 8) posX color;
  Ok (set_buf f m).

(** SimpleFrameBuffer.h:29-32, [drawPixel(int, int)] *)
Definition drawPixel2 (f : fb) (posX posY : Z) : res fb := drawPixel3 f posX posY (selectedColor f).

(** [for (int i = i0; i < i0 + n; ++i) body] *)
Fixpoint for_up {S} (n : nat) (i : Z) (body : Z -> S -> res S) (s : S) : res S :=
  match n with
  | O => Ok s
  | S n => do s' <- body i s; for_up n (i + 1) body s'
  end.

(** SimpleFrameBuffer.h:19-28, [clear] *)
Definition clear (f : fb) (color : Z) : res fb :=
  for_up (Z.to_nat (getWidth f)) 0
    (fun x => for_up (Z.to_nat (fh f)) 0 (fun y f => drawPixel3 f x y color)) f.
