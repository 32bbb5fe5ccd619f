(** Several PersistentStorage objects over one buffer: each has its own [free_head_], the bytes are
    shared.  The reference: one map, and for each object the keys it knows of. *)
From Verif Require Import Base M_Storage S_Storage.

(** ** The objects: all were made when the region was empty, or are made anew on it (init = false) *)
Record shared := mkshared { region : list Z; heads : nat -> Z }.
Definition fresh (b : list Z) : shared := mkshared (repeat 0 (length b)) (fun _ => 0).
Definition object (s : shared) (i : nat) : st := mkst (region s) (heads s i).
Definition after (s : shared) (i : nat) (t : st) : shared :=
  mkshared (buf t) (fun j => if Nat.eqb j i then head t else heads s j).
Inductive hop := HOpen (i : nat) | HSet (i : nat) (name obj : list Z) | HGet (i : nat) (name : list Z) (n : Z).
Definition hstep (fuel : nat) (s : shared) (o : hop) : res (ans * shared) :=
  match o with
  | HOpen i => do t <- ctor_open fuel (region s); Ok (AUnit, after s i t)
  | HSet i name obj => do ' (b, t) <- set fuel (object s i) name obj; Ok (ABool b, after s i t)
  | HGet i name n => do r <- get fuel (object s i) name n; Ok (AOpt r, s)
  end.
Fixpoint hexec (fuel : nat) (s : shared) (ops : list hop) : res (list ans * shared) :=
  match ops with
  | [] => Ok ([], s)
  | o :: ops =>
      do ' (a, s) <- hstep fuel s o;
      do ' (l, s) <- hexec fuel s ops;
      Ok (a :: l, s)
  end.

(** ** The reference *)
Definition keyset : Type := list Z -> Z -> bool.
Record rshared := mkrshared { contents : rmap; known : nat -> keyset }.
Definition r_fresh (cap : Z) : rshared := mkrshared (r_init cap) (fun _ _ _ => false).
Definition all_keys (m : rmap) : keyset := fun k n => match r_map m k n with Some _ => true | None => false end.
Definition learns (f : nat -> keyset) (i : nat) (ks : keyset) : nat -> keyset := fun j => if Nat.eqb j i then ks else f j.
Definition rh_step (r : rshared) (o : hop) : ans * rshared :=
  match o with
  | HOpen i => (AUnit, mkrshared (contents r) (learns (known r) i (all_keys (contents r))))
  | HSet i name obj =>
      let (b, m) := r_set (contents r) name obj in
      (ABool b, mkrshared m (if known r i (pad4 name) (zlen obj) then known r else learns (known r) i (all_keys m)))
  | HGet i name n => (AOpt (if known r i (pad4 name) n then r_get (contents r) name n else None), r)
  end.
Fixpoint rh_exec (r : rshared) (ops : list hop) : list ans * rshared :=
  match ops with
  | [] => ([], r)
  | o :: ops => let (a, r) := rh_step r o in let (l, r) := rh_exec r ops in (a :: l, r)
  end.

(** an entry is only added by an object that knows of all entries *)
Definition up_to_date (r : rshared) (i : nat) : Prop :=
  forall k n, zlen k = 4 -> r_map (contents r) k n <> None -> known r i k n = true.
Definition careful_op (r : rshared) (o : hop) : Prop :=
  match o with
  | HSet i name obj => known r i (pad4 name) (zlen obj) = true \/ up_to_date r i
  | _ => True
  end.
Fixpoint careful (r : rshared) (ops : list hop) : Prop :=
  match ops with
  | [] => True
  | o :: ops => careful_op r o /\ careful (snd (rh_step r o)) ops
  end.
(** only the object [w] sets; only entries that are there are set *)
Definition writes_by (w : nat) (o : hop) : Prop := match o with HSet i _ _ => i = w | _ => True end.

Definition hop_ok (o : hop) : Prop :=
  match o with
  | HOpen _ => True
  | HSet _ name obj => zlen name <= 4 /\ zlen obj <= 65529
  | HGet _ name n => zlen name <= 4 /\ 0 <= n
  end.
