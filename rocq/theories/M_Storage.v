(** Model of PersistentStorage.{h,cpp}.

    The buffer is the list of its bytes; an object of type [T] is the list of its [sizeof(T)] bytes;
    names are the byte lists of the [string_view]s.  The sums of [size_t] do not wrap: no position
    and record together reach 2^32 unless buffer and object fill the whole memory of a 32-bit target;
    [free_head_] and the loop variable [pos] are 32-bit unsigned.  That the casts (lines 109-129, cpp:13)
    give access to the bytes as objects is taken for granted (alignment is 1, aliasing is not modelled).
    The 16-bit size field is little-endian, as on every supported target.
    Every access to bytes outside the buffer is [UB].  Packing (line 93) removes padding, so a node is
    2 bytes of size, 4 bytes of name, then the object.  Loops take fuel. *)
From Verif Require Import Base.

(** PersistentStorage.h:90-91 *)
Record st := mkst { buf : list Z; head : Z }.

(** PersistentStorage.h:93-98 : sizeof(NodeDescriptor) *)
Definition HDR : Z := 6.

(** PersistentStorage.h:20-40 : comparison of the 4-char array with a string_view *)
Definition idx_eq (idx name : list Z) : bool :=
  if zlen idx <? zlen name then false
  else if negb (eqbl (firstn (length name) idx) name) then false
  else forallb (fun c => c =? 0) (skipn (length name) idx).

(** the [size] member of the node at [pos] (PersistentStorage.h:96, read through 107-122) *)
Definition node_size (b : list Z) (pos : Z) : res Z :=
  do l <- rd_slice b pos 2; Ok (nthZ l 0 + 256 * nthZ l 1).
(** the [idx] member (PersistentStorage.h:97) *)
Definition node_idx (b : list Z) (pos : Z) : res (list Z) := rd_slice b (pos + 2) 4.

(** PersistentStorage.h:124-137, [n] = sizeof(T); [None] is wrongPos *)
Fixpoint getIdx (fuel : nat) (b : list Z) (hd : Z) (name : list Z) (n pos : Z) : res (option Z) :=
  match fuel with
  | O => Fuel
  | S fuel' =>
      if pos + HDR <=? hd then
        do ix <- node_idx b pos;
        do sz <- node_size b pos;
        if idx_eq ix name && (sz =? HDR + n) then Ok (Some pos)
        else getIdx fuel' b hd name n (u32 (pos + sz))
      else Ok None
  end.

(** PersistentStorage.h:76-87 *)
Definition get (fuel : nat) (s : st) (name : list Z) (n : Z) : res (option (list Z)) :=
  do p <- getIdx fuel (buf s) (head s) name n 0;
  match p with
  | None => Ok None
  | Some pos =>
      do ix <- node_idx (buf s) pos;
      do sz <- node_size (buf s) pos;
      if idx_eq ix name && (sz =? HDR + n) then
        do d <- rd_slice (buf s) (pos + HDR) n; Ok (Some d)
      else Ok None
  end.

(** the bytes left in [node.idx] by lines 66-69: at most four characters copied, rest zeroed *)
Definition idx_bytes (name : list Z) : list Z :=
  firstn 4 name ++ repeat 0 (4 - length (firstn 4 name)).
(** the two bytes of [node.size = recordSize] (line 70): conversion to uint16_t *)
Definition size_bytes (rs : Z) : list Z := [u16 rs mod 256; u16 rs / 256].

(** one store: offset, bytes, and whether the source stores them as a single 16-bit scalar *)
Record store := mkstore { w_off : Z; w_data : list Z; w_scalar : bool }.

(** PersistentStorage.h:50-74 : the stores [set] performs, in program order, and the new free_head_.
    [None]: no room, nothing is stored. *)
Definition set_plan (fuel : nat) (s : st) (name obj : list Z) : res (option (list store * Z)) :=
  do p <- getIdx fuel (buf s) (head s) name (zlen obj) 0;
  match p with
  | Some pos => Ok (Some ([mkstore (pos + HDR) obj false], head s))                       (* lines 53-58 *)
  | None =>
      let rs := HDR + zlen obj in                                              (* line 59 *)
      if zlen (buf s) <? head s + rs then Ok None                            (* lines 60-64 *)
      else Ok (Some ([mkstore (head s + 2) (idx_bytes name) false;                          (* lines 66-69 *)
                      mkstore (head s) (size_bytes rs) true;                               (* line 70 *)
                      mkstore (head s + HDR) obj false],                                  (* line 71 *)
                     u32 (head s + rs)))                                     (* line 72 *)
  end.
Fixpoint apply_stores (b : list Z) (ws : list store) : res (list Z) :=
  match ws with
  | [] => Ok b
  | w :: ws' => do b' <- wr_slice b (w_off w) (w_data w); apply_stores b' ws'
  end.
Definition set (fuel : nat) (s : st) (name obj : list Z) : res (bool * st) :=
  do p <- set_plan fuel s name obj;
  match p with
  | None => Ok (false, s)
  | Some (ws, h) => do b <- apply_stores (buf s) ws; Ok (true, mkst b h)
  end.

(** PersistentStorage.cpp:5-9 : constructor with init = true *)
Definition ctor_init (b : list Z) : st := mkst (repeat 0 (length b)) 0.
(** PersistentStorage.cpp:10-18 : constructor with init = false *)
Fixpoint scan (fuel : nat) (b : list Z) (hd : Z) : res Z :=
  match fuel with
  | O => Fuel
  | S fuel' =>
      if hd + HDR <=? zlen b then
        do sz <- node_size b hd;
        if sz =? 0 then Ok hd
        else if hd + sz <=? zlen b then scan fuel' b (u32 (hd + sz))
        else Ok hd
      else Ok hd
  end.
Definition ctor_open (fuel : nat) (b : list Z) : res st :=
  do h <- scan fuel b 0; Ok (mkst b h).

(** ** Call sequences on one region *)
Inductive op := OSet (name obj : list Z) | OGet (name : list Z) (n : Z) | OReopen.
Inductive ans := ABool (b : bool) | AOpt (o : option (list Z)) | AUnit.
Definition step (fuel : nat) (s : st) (o : op) : res (ans * st) :=
  match o with
  | OSet name obj => do ' (b, s') <- set fuel s name obj; Ok (ABool b, s')
  | OGet name n => do r <- get fuel s name n; Ok (AOpt r, s)
  | OReopen => do s' <- ctor_open fuel (buf s); Ok (AUnit, s')
  end.
Fixpoint exec (fuel : nat) (s : st) (ops : list op) : res (list ans * st) :=
  match ops with
  | [] => Ok ([], s)
  | o :: ops' =>
      do ' (a, s') <- step fuel s o;
      do ' (l, s'') <- exec fuel s' ops';
      Ok (a :: l, s'')
  end.
