(** Model of graphics/Canvas.h and graphics/Canvas.cpp (drawing primitives).
    A drawing operation is modelled by the sequence of points it passes to [setIfVisible]
    ("plots"), in order; [draw] then performs those calls: the visible ones become [drawPixel]
    calls on the frame buffer.  (The operations never read the frame buffer, so separating the two
    steps changes nothing.)  All [int] arithmetic is range-checked.  The loops of [drawLine] and
    [drawCircle] run on fuel; counted loops recurse on their trip count.
    [Canvas::clear] and [setColor] are in M_Drawing; [getImage] only forwards to the frame buffer. *)
From Verif Require Import Base M_Geometry M_FrameBuffer.

(** Canvas.h:84-90, the condition of [setIfVisible] *)
Definition visible (c : canvas) (p : pt) : bool :=
  (fst p >=? 0) && (fst p <? cw c) && (snd p >=? 0) && (snd p <? ch c).
(** Canvas.h:84-90, [setIfVisible] on a frame buffer *)
Definition setIfVisible (c : canvas) (f : fb) (p : pt) : res fb :=
  if visible c p then drawPixel2 f (fst p) (snd p) else Ok f.
(** a sequence of [setIfVisible] calls *)
Fixpoint draw (c : canvas) (f : fb) (ps : list pt) : res fb :=
  match ps with [] => Ok f | p :: ps => do f' <- setIfVisible c f p; draw c f' ps end.

(** Canvas.h:22-27, constructor *)
Definition newCanvas (f : fb) : canvas := mkCanvas (getWidth f) (getHeight f) R0.

(** Canvas.h:57-60, [drawPixel] *)
Definition drawPixel (c : canvas) (p : pt) : res (list pt) :=
  do q <- transformPoint c p; Ok [q].

(** Canvas.cpp:82-88, [drawHorizontalLine]; [n] is the number of iterations *)
Fixpoint hline (n : nat) (p : pt) : res (list pt) :=
  match n with
  | O => Ok []
  | S n => do x <- chk (fst p + 1); do l <- hline n (x, snd p); Ok (p :: l)
  end.
Definition drawHorizontalLine (p : pt) (width : Z) : res (list pt) := hline (Z.to_nat width) p.

(** Canvas.cpp:90-96, [drawVerticalLine] *)
Fixpoint vline (n : nat) (p : pt) : res (list pt) :=
  match n with
  | O => Ok []
  | S n => do y <- chk (snd p + 1); do l <- vline n (fst p, y); Ok (p :: l)
  end.
Definition drawVerticalLine (p : pt) (height : Z) : res (list pt) := vline (Z.to_nat height) p.

(** Canvas.cpp:69-79, the loop of [drawLine]; the references [longCoord]/[shortCoord] into [start]
    are the arguments [lng], [shrt] *)
Fixpoint lineLoop (fuel : nat) (moveY : bool) (longDiff shortDiff sign longMax lng shrt err : Z)
  : res (list pt) :=
  match fuel with
  | O => Fuel
  | S fuel =>
    if lng <=? longMax then
      let p := if moveY then (shrt, lng) else (lng, shrt) in
      do err1 <- chk (err - shortDiff);
      do ' (shrt2, err2) <- (if err1 <? 0 then
                               do s <- chk (shrt + sign); do e <- chk (err1 + longDiff); Ok (s, e)
                             else Ok (shrt, err1));
      do lng2 <- chk (lng + 1);
      do l <- lineLoop fuel moveY longDiff shortDiff sign longMax lng2 shrt2 err2;
      Ok (p :: l)
    else Ok []
  end.

(** Canvas.cpp:31-80, [drawLine] *)
Definition drawLine (fuel : nat) (c : canvas) (start0 end0 : pt) : res (list pt) :=
  do start <- transformPoint c start0;
  do end_ <- transformPoint c end0;
  do dx <- chk (fst end_ - fst start);
  do diffX <- chk (Z.abs dx);
  do dy <- chk (snd end_ - snd start);
  do diffY <- chk (Z.abs dy);
  if diffX =? 0 then
    do n <- chk (diffY + 1); drawVerticalLine (fst start, Z.min (snd start) (snd end_)) n
  else if diffY =? 0 then
    do n <- chk (diffX + 1); drawHorizontalLine (Z.min (fst start) (fst end_), snd start) n
  else
    let moveY := diffY >? diffX in
    let long_of (p : pt) := if moveY then snd p else fst p in
    let short_of (p : pt) := if moveY then fst p else snd p in
    let shortDiff := if moveY then diffX else diffY in
    let longDiff := if moveY then diffY else diffX in
    let swap := long_of start >? long_of end_ in
    let s := if swap then end_ else start in
    let e := if swap then start else end_ in
    let err := Z.quot longDiff 2 in
    let sign := if short_of s <? short_of e then 1 else -1 in
    lineLoop fuel moveY longDiff shortDiff sign (long_of e) (long_of s) (short_of s) err.

(** Canvas.cpp:98-105, [drawRectangle] *)
Definition drawRectangle (c : canvas) (r0 : rect) : res (list pt) :=
  do r <- transformRect c r0;
  do a <- drawHorizontalLine (tl r) (fst (sz r));
  do bl <- bottomLeft r;
  do b <- drawHorizontalLine bl (fst (sz r));
  do d <- drawVerticalLine (tl r) (snd (sz r));
  do tr <- topRight r;
  do e <- drawVerticalLine tr (snd (sz r));
  Ok (a ++ b ++ d ++ e).

(** Canvas.cpp:118-122, the row loop of [drawFilledRectangle] *)
Fixpoint fillRows (fuel : nat) (p : pt) (bottom width : Z) : res (list pt) :=
  match fuel with
  | O => Fuel
  | S fuel =>
    if snd p <=? bottom then
      do a <- drawHorizontalLine p width; do y <- chk (snd p + 1);
      do l <- fillRows fuel (fst p, y) bottom width; Ok (a ++ l)
    else Ok []
  end.
(** Canvas.cpp:107-123, [drawFilledRectangle] *)
Definition drawFilledRectangle (fuel : nat) (c : canvas) (r0 : rect) : res (list pt) :=
  do r <- transformRect c r0;
  do br <- bottomRight r;
  let tlx := Z.max (fst (tl r)) 0 in
  let tly := Z.max (snd (tl r)) 0 in
  do w1 <- chk (cw c - 1);
  let brx := Z.min (fst br) w1 in
  do h1 <- chk (ch c - 1);
  let bry := Z.min (snd br) h1 in
  do a <- chk (brx - tlx);
  do width <- chk (a + 1);
  fillRows fuel (tlx, tly) bry width.

(** Canvas.cpp:135-143, the plots of one iteration of [drawCircle] *)
Definition circlePlots (center : pt) (filled : bool) (x y : Z) : res (list pt) :=
  do nx <- chk (- x);
  do a <- pt_add center (nx, y);
  do b <- pt_add center (x, y);
  do ny <- chk (- y);
  do d <- pt_add center (x, ny);
  do e <- pt_add center (nx, ny);
  do rows <- (if filled then
                do w2 <- chk (2 * nx); do w <- chk (w2 + 1);
                do r1 <- drawHorizontalLine b w;
                do r2 <- drawHorizontalLine d w;
                Ok (r1 ++ r2)
              else Ok []);
  Ok (a :: b :: d :: e :: rows).

(** Canvas.cpp:144-156, the update of [xPos], [yPos], [err] *)
Definition circleStep (x y err : Z) : res (Z * Z * Z) :=
  do ' (y1, err1, e2) <-
    (if err <=? y then
       do y1 <- chk (y + 1); do t <- chk (y1 * 2); do t1 <- chk (t + 1); do err1 <- chk (err + t1);
       do nx <- chk (- x);
       Ok (y1, err1, if (nx =? y1) && (err <=? x) then 0 else err)
     else Ok (y, err, err));
  if e2 >? x then
    do x1 <- chk (x + 1); do t <- chk (x1 * 2); do t1 <- chk (t + 1); do err2 <- chk (err1 + t1);
    Ok (x1, y1, err2)
  else Ok (x, y1, err1).

(** Canvas.cpp:133-157, the [do ... while] loop *)
Fixpoint circleLoop (fuel : nat) (center : pt) (filled : bool) (x y err : Z) : res (list pt) :=
  match fuel with
  | O => Fuel
  | S fuel =>
    do ps <- circlePlots center filled x y;
    do ' (x1, y1, err1) <- circleStep x y err;
    do l <- (if x1 <=? 0 then circleLoop fuel center filled x1 y1 err1 else Ok []);
    Ok (ps ++ l)
  end.

(** Canvas.cpp:125-158, [drawCircle] *)
Definition drawCircle (fuel : nat) (c : canvas) (center0 : pt) (radius : Z) (filled : bool)
  : res (list pt) :=
  do center <- transformPoint c center0;
  do x <- chk (- radius);
  do r2 <- chk (2 * radius);
  do err <- chk (2 - r2);
  circleLoop fuel center filled x 0 err.
