(** Model of MemoryView.h.

    A [MemoryView<T>] is a pair (pointer, element count).  Pointers are [None] (nullptr) or an address
    into the flat byte memory [m : list Z] of the underlying array; [esz] is [sizeof(T)].
    [W] is the width of [size_t] in bits (32 on the microcontrollers, 64 on the machine of the tests);
    [NPOS W] is [size_type(-1)].
    Simplification: forming a pointer is undefined only when nullptr is moved; that no pointer leaves the
    underlying array is a theorem, not part of the model. *)
From Verif Require Import Base.

(** the number of values of [size_t] *)
Definition SIZE_MOD (W : Z) : Z := 2 ^ W.
(** MemoryView.h:27 *)
Definition NPOS (W : Z) : Z := SIZE_MOD W - 1.

(** MemoryView.h:97-98 *)
Record view := mkview { vptr : option Z; vsize : Z }.

(** MemoryView.h:29 *)
Definition view_empty : view := mkview None 0.
(** MemoryView.h:30 *)
Definition view_ptr_size (p : option Z) (s : Z) : view := mkview p s.
(** MemoryView.h:31 : [size_(end - begin)], both pointers into the same array *)
Definition view_begin_end (esz : Z) (b e : Z) : view := mkview (Some b) ((e - b) / esz).
(** MemoryView.h:35 copy/const conversion, 39 std::array, 42 C array: pointer to the first element and count *)
Definition view_of_array (addr n : Z) : view := mkview (Some addr) n.

(** pointer arithmetic [p + n] on [T*] *)
Definition padd (esz : Z) (p : option Z) (n : Z) : res (option Z) :=
  match p with
  | Some a => Ok (Some (a + n * esz))
  | None => if n =? 0 then Ok None else UB
  end.

(** MemoryView.h:50 *)
Definition v_at (esz : Z) (m : list Z) (v : view) (i : Z) : res (list Z) :=
  match vptr v with Some a => rd_slice m (a + i * esz) esz | None => UB end.
(** write through the reference returned by [operator[]] (MemoryView.h:50) *)
Definition v_put (esz : Z) (m : list Z) (v : view) (i : Z) (x : list Z) : res (list Z) :=
  match vptr v with Some a => wr_slice m (a + i * esz) x | None => UB end.
(** MemoryView.h:51, 53 *)
Definition v_begin (v : view) : option Z := vptr v.
(** MemoryView.h:52, 54 *)
Definition v_end (esz : Z) (v : view) : res (option Z) := padd esz (vptr v) (vsize v).
(** MemoryView.h:59 *)
Definition v_size (v : view) : Z := vsize v.
(** MemoryView.h:60 : size_t multiplication wraps *)
Definition v_size_bytes (W esz : Z) (v : view) : Z := (vsize v * esz) mod SIZE_MOD W.
(** MemoryView.h:62 *)
Definition v_is_empty (v : view) : bool := vsize v =? 0.
(** MemoryView.h:63 *)
Definition v_front (esz : Z) (m : list Z) (v : view) : res (list Z) := v_at esz m v 0.
(** MemoryView.h:64 : [*(begin_ + size_ - 1)] *)
Definition v_back (esz : Z) (m : list Z) (v : view) : res (list Z) := v_at esz m v (vsize v - 1).

(** MemoryView.h:65-72 *)
Definition v_subspan (W esz : Z) (v : view) (offset count : Z) : res view :=
  if vsize v <=? offset then Ok view_empty
  else if count =? NPOS W then
    do p <- padd esz (vptr v) offset; Ok (mkview p (vsize v - offset))
  else
    do p <- padd esz (vptr v) offset; Ok (mkview p (Z.min (vsize v - offset) count)).
(** MemoryView.h:73-78 *)
Definition v_first (v : view) (count : Z) : view :=
  if vsize v <=? count then v else mkview (vptr v) count.
(** MemoryView.h:79-84 *)
Definition v_last (esz : Z) (v : view) (count : Z) : res view :=
  if vsize v <=? count then Ok v
  else do p <- padd esz (vptr v) (vsize v - count); Ok (mkview p count).
(** MemoryView.h:85-88, 90-94 : same pointer, [size_bytes()] elements of size 1 *)
Definition v_as_bytes (W esz : Z) (v : view) : view := mkview (vptr v) (v_size_bytes W esz v).
(** MemoryView.h:45-48 : [std::string_view{begin_, size_}] *)
Definition v_string_view (v : view) : option Z * Z := (vptr v, vsize v).

(** Range-for over begin()..end() (MemoryView.h:51-52): dereference begin+i for i = 0 .. size-1. *)
Fixpoint v_collect (esz : Z) (m : list Z) (p : option Z) (n : nat) : res (list (list Z)) :=
  match n with
  | O => Ok []
  | S n' =>
      match p with
      | None => UB
      | Some a =>
          do x <- rd_slice m a esz;
          do q <- padd esz p 1;
          do xs <- v_collect esz m q n';
          Ok (x :: xs)
      end
  end.
Definition v_iterate (esz : Z) (m : list Z) (v : view) : res (list (list Z)) :=
  v_collect esz m (v_begin v) (Z.to_nat (vsize v)).
(** Loop over rbegin()..rend() (MemoryView.h:55-58): a reverse_iterator at [q] dereferences [q-1]. *)
Fixpoint v_rcollect (esz : Z) (m : list Z) (q : option Z) (n : nat) : res (list (list Z)) :=
  match n with
  | O => Ok []
  | S n' =>
      match q with
      | None => UB
      | Some a =>
          do x <- rd_slice m (a - esz) esz;
          do q' <- padd esz q (-1);
          do xs <- v_rcollect esz m q' n';
          Ok (x :: xs)
      end
  end.
Definition v_riterate (esz : Z) (m : list Z) (v : view) : res (list (list Z)) :=
  do e <- v_end esz v; v_rcollect esz m e (Z.to_nat (vsize v)).
