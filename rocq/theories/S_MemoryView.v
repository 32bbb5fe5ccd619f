(** Specification side for MemoryView: which elements a view denotes.  Independent of the code's
    functions; mentions only the two public observables data() and size(). *)
From Verif Require Import Base M_MemoryView.

(** the values of a [size_t] of [W] bits are below this; the largest one stands for "to the end" *)
Definition SIZE_LIMIT (W : Z) : Z := 2 ^ W.

(** The view lies inside the memory [m]: a null view is empty; otherwise [size] elements of [esz]
    bytes starting at the pointer are inside. *)
Definition view_ok (W esz : Z) (m : list Z) (v : view) : Prop :=
  0 <= vsize v < SIZE_LIMIT W /\
  match vptr v with
  | None => vsize v = 0
  | Some a => 0 <= a /\ a + vsize v * esz <= zlen m
  end.

(** The list of elements (each [esz] bytes) the view denotes. *)
Definition view_elems (esz : Z) (m : list Z) (v : view) : list (list Z) :=
  match vptr v with
  | None => []
  | Some a => map (fun i => slice m (a + Z.of_nat i * esz) esz) (seq 0 (Z.to_nat (vsize v)))
  end.

(** [take]/[drop] with [Z] counts. *)
Definition takeZ {A} (n : Z) (l : list A) : list A := firstn (Z.to_nat n) l.
Definition dropZ {A} (n : Z) (l : list A) : list A := skipn (Z.to_nat n) l.

(** Address range of [v'] inside that of [v] (empty results excepted). *)
Definition range_inside (esz : Z) (v' v : view) : Prop :=
  vsize v' = 0 \/
  exists a a', vptr v = Some a /\ vptr v' = Some a' /\
               a <= a' /\ a' + vsize v' * esz <= a + vsize v * esz.
