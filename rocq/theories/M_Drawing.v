(** Model of a sequence of calls on one Canvas (graphics/Canvas.h, graphics/Canvas.cpp).
    The frame buffer behind the canvas is the SimpleFrameBuffer of M_FrameBuffer. *)
From Verif Require Import Base M_Geometry M_FrameBuffer M_Canvas.

(** the calls; [Draw op]: one of the drawing functions of M_Canvas or M_Font with its arguments, which
    gives the points it plots *)
Inductive command :=
| SetColor (foregroundColor : Z)
| Clear (backgroundColor : Z)
| SetRotation (r : rotation)
| Draw (op : canvas -> nat -> res (list pt)).

(** Canvas.h:29-32, 34-37, 53 and the drawing functions (Canvas.h:57-74); all of them work on the
    canvas' own frame buffer *)
Definition call (fuel : nat) (k : command) (c : canvas) (f : fb) : res (canvas * fb) :=
  match k with
  | SetColor col => do f' <- setColor f col; Ok (c, f')
  | Clear col => do f' <- clear f col; Ok (c, f')
  | SetRotation r => Ok (setRotation c r, f)
  | Draw op => do l <- op c fuel; do f' <- draw c f l; Ok (c, f')
  end.
Fixpoint calls (fuel : nat) (ks : list command) (c : canvas) (f : fb) : res (canvas * fb) :=
  match ks with
  | [] => Ok (c, f)
  | k :: ks => do ' (c', f') <- call fuel k c f; calls fuel ks c' f'
  end.
