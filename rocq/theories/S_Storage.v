(** Specification of PersistentStorage: a finite map from (zero-padded name, object size) to bytes with
    a space budget; crash semantics of a sequence of stores; record chains of arbitrary bytes. *)
From Verif Require Import Base M_Storage.

Definition pad4 (name : list Z) : list Z := firstn 4 (name ++ [0; 0; 0; 0]).

Record rmap := mkrm { r_cap : Z; r_used : Z; r_map : list Z -> Z -> option (list Z) }.
Definition r_init (cap : Z) : rmap := mkrm cap 0 (fun _ _ => None).
Definition r_upd (f : list Z -> Z -> option (list Z)) (k : list Z) (v : list Z) :=
  fun k' n' => if eqbl k' k && (n' =? zlen v) then Some v else f k' n'.
Definition r_get (m : rmap) (name : list Z) (n : Z) : option (list Z) := r_map m (pad4 name) n.
Definition r_set (m : rmap) (name v : list Z) : bool * rmap :=
  match r_map m (pad4 name) (zlen v) with
  | Some _ => (true, mkrm (r_cap m) (r_used m) (r_upd (r_map m) (pad4 name) v))
  | None =>
      if r_used m + 6 + zlen v <=? r_cap m
      then (true, mkrm (r_cap m) (r_used m + 6 + zlen v) (r_upd (r_map m) (pad4 name) v))
      else (false, m)
  end.
Definition r_step (m : rmap) (o : op) : ans * rmap :=
  match o with
  | OSet name v => let (b, m') := r_set m name v in (ABool b, m')
  | OGet name n => (AOpt (r_get m name n), m)
  | OReopen => (AUnit, m)
  end.
Fixpoint r_exec (m : rmap) (ops : list op) : list ans * rmap :=
  match ops with
  | [] => ([], m)
  | o :: ops' => let (a, m') := r_step m o in let (l, m'') := r_exec m' ops' in (a :: l, m'')
  end.

(** valid calls: objects whose record size fits the 16-bit field; byte values in range *)
Definition op_ok (o : op) : Prop :=
  match o with
  | OSet name v => bytes name /\ bytes v /\ zlen v <= 65529
  | OGet name n => bytes name /\ 0 <= n
  | OReopen => True
  end.
Definition op_name (o : op) : list Z :=
  match o with OSet name _ => name | OGet name _ => name | OReopen => [] end.
Definition short_name (o : op) : Prop := zlen (op_name o) <= 4.
Definition is_get (o : op) : Prop := match o with OGet _ _ => True | _ => False end.
Definition not_reopen (o : op) : Prop := match o with OReopen => False | _ => True end.
(** objects have at least one byte, as in C++ ([sizeof]) *)
Definition object_op (o : op) : Prop :=
  match o with OSet _ v => 1 <= zlen v | OGet _ n => 1 <= n | OReopen => True end.

(** ** Crashes.  [mix old new l]: every byte of [l] is the old or the new one. *)
Definition mix (old new l : list Z) : Prop :=
  zlen l = zlen old /\ zlen new = zlen old /\
  forall i, 0 <= i < zlen old -> nthZ l i = nthZ old i \/ nthZ l i = nthZ new i.
(** Any subset of the pending bytes reached memory. *)
Definition crash_any (b bfinal b' : list Z) : Prop := mix b bfinal b'.
(** Stores reach memory in program order; a 16-bit scalar store is atomic, any other store may be cut
    anywhere, in any byte order. *)
Inductive crash_ordered : list Z -> list store -> list Z -> Prop :=
| co_before b ws : crash_ordered b ws b
| co_after b w b1 ws b' : wr_slice b (w_off w) (w_data w) = Ok b1 -> crash_ordered b1 ws b' ->
    crash_ordered b (w :: ws) b'
| co_inside b w b1 ws b' : w_scalar w = false -> wr_slice b (w_off w) (w_data w) = Ok b1 -> mix b b1 b' ->
    crash_ordered b (w :: ws) b'.

(** machine histories with crashes: a crash interrupts [set name obj]; the region is then reopened *)
Inductive event := EOp (o : op) | ECrash (name obj : list Z).
Inductive mstep (fuel : nat) : st -> event -> ans -> st -> Prop :=
| ms_op s o a s' : step fuel s o = Ok (a, s') -> mstep fuel s (EOp o) a s'
| ms_crash s name obj ws h b' s' :
    set_plan fuel s name obj = Ok (Some (ws, h)) -> crash_ordered (buf s) ws b' ->
    ctor_open fuel b' = Ok s' -> mstep fuel s (ECrash name obj) AUnit s'
| ms_crash_noroom s name obj s' :
    set_plan fuel s name obj = Ok None ->
    ctor_open fuel (buf s) = Ok s' -> mstep fuel s (ECrash name obj) AUnit s'.
Inductive mrun (fuel : nat) : st -> list event -> list ans -> st -> Prop :=
| mr_nil s : mrun fuel s [] [] s
| mr_cons s e a s1 es l s' : mstep fuel s e a s1 -> mrun fuel s1 es l s' -> mrun fuel s (e :: es) (a :: l) s'.
(** the corresponding reference behaviour *)
Inductive rstep : rmap -> event -> ans -> rmap -> Prop :=
| rs_op m o a m' : r_step m o = (a, m') -> rstep m (EOp o) a m'
| rs_crash_none m name obj : rstep m (ECrash name obj) AUnit m
| rs_crash_new m name obj v : r_map m (pad4 name) (zlen obj) = None ->
    r_used m + 6 + zlen obj <= r_cap m -> mix (repeat 0 (length obj)) obj v ->
    rstep m (ECrash name obj) AUnit
      (mkrm (r_cap m) (r_used m + 6 + zlen obj) (r_upd (r_map m) (pad4 name) v))
| rs_crash_over m name obj old v : r_map m (pad4 name) (zlen obj) = Some old -> mix old obj v ->
    rstep m (ECrash name obj) AUnit (mkrm (r_cap m) (r_used m) (r_upd (r_map m) (pad4 name) v)).
Inductive rrun : rmap -> list event -> list ans -> rmap -> Prop :=
| rr_nil m : rrun m [] [] m
| rr_cons m e a m1 es l m' : rstep m e a m1 -> rrun m1 es l m' -> rrun m (e :: es) (a :: l) m'.
Definition event_ok (e : event) : Prop :=
  match e with
  | EOp o => op_ok o /\ short_name o
  | ECrash name obj => op_ok (OSet name obj) /\ zlen name <= 4
  end.

(** ** Names of any length: entries have the first four bytes of the name; a name of more than four bytes
    is never found, so every set adds an entry, which the first one of the same name and size hides *)
Definition any_get (m : rmap) (name : list Z) (n : Z) : option (list Z) := if zlen name <=? 4 then r_map m (pad4 name) n else None.
Definition any_add (m : rmap) (name v : list Z) : rmap :=
  mkrm (r_cap m) (r_used m + 6 + zlen v)
       (match r_map m (pad4 name) (zlen v) with Some _ => r_map m | None => r_upd (r_map m) (pad4 name) v end).
Definition any_set (m : rmap) (name v : list Z) : bool * rmap :=
  match any_get m name (zlen v) with
  | Some _ => (true, mkrm (r_cap m) (r_used m) (r_upd (r_map m) (pad4 name) v))
  | None => if r_used m + 6 + zlen v <=? r_cap m then (true, any_add m name v) else (false, m)
  end.
Definition any_step (m : rmap) (o : op) : ans * rmap :=
  match o with
  | OSet name v => let (b, m') := any_set m name v in (ABool b, m')
  | OGet name n => (AOpt (any_get m name n), m)
  | OReopen => (AUnit, m)
  end.
Fixpoint any_exec (m : rmap) (ops : list op) : list ans * rmap :=
  match ops with
  | [] => ([], m)
  | o :: ops' => let (a, m') := any_step m o in let (l, m'') := any_exec m' ops' in (a :: l, m'')
  end.
Inductive any_event : rmap -> event -> ans -> rmap -> Prop :=
| ae_op m o a m' : any_step m o = (a, m') -> any_event m (EOp o) a m'
| ae_crash_none m name obj : any_event m (ECrash name obj) AUnit m
| ae_crash_new m name obj v : any_get m name (zlen obj) = None -> r_used m + 6 + zlen obj <= r_cap m ->
    mix (repeat 0 (length obj)) obj v -> any_event m (ECrash name obj) AUnit (any_add m name v)
| ae_crash_over m name obj old v : any_get m name (zlen obj) = Some old -> mix old obj v ->
    any_event m (ECrash name obj) AUnit (mkrm (r_cap m) (r_used m) (r_upd (r_map m) (pad4 name) v)).
Inductive any_run : rmap -> list event -> list ans -> rmap -> Prop :=
| ar_nil m : any_run m [] [] m
| ar_cons m e a m1 es l m' : any_event m e a m1 -> any_run m1 es l m' -> any_run m (e :: es) (a :: l) m'.
Definition valid_event (e : event) : Prop := match e with EOp o => op_ok o | ECrash name obj => op_ok (OSet name obj) end.

(** ** Record chains of arbitrary bytes: positions reached from 0 by following the 16-bit size fields *)
Definition size_at (b : list Z) (p : Z) : Z := nthZ b p + 256 * nthZ b (p + 1).
Inductive chain (b : list Z) : Z -> Z -> Prop :=
| chain_nil p : chain b p p
| chain_cons p h : 0 <= p -> p + 6 <= zlen b -> 0 < size_at b p -> p + size_at b p <= zlen b ->
    chain b (p + size_at b p) h -> chain b p h.
(** the chain up to [h] ends with a record whose size field is 1 *)
Definition ends_in_one_byte_record (b : list Z) (h : Z) : Prop :=
  chain b 0 (h - 1) /\ 0 < h /\ size_at b (h - 1) = 1.

(** ** Reachable states: from a freshly initialised region by valid calls (names of any length) *)
Definition reachable (fuel : nat) (s : st) : Prop :=
  exists b0 ops l, zlen b0 < 4294967296 /\ (length b0 < fuel)%nat /\ Forall op_ok ops /\
                   exec fuel (ctor_init b0) ops = Ok (l, s).
(** the same with names of at most four bytes only, and the reference map of the history *)
Definition reachable_map (fuel : nat) (s : st) (m : rmap) : Prop :=
  exists b0 ops l, zlen b0 < 4294967296 /\ (length b0 < fuel)%nat /\ Forall op_ok ops /\
                   Forall short_name ops /\
                   exec fuel (ctor_init b0) ops = Ok (l, s) /\ m = snd (r_exec (r_init (zlen b0)) ops).
