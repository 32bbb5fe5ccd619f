(** tests/MemoryViewTest.cpp evaluated on the model (a check of the model, not a proof).
    The type-level assertions (lines 43-45, 57, 67-68) are not expressible and the const copy (lines 23-30) is the
    same pair in the model; arrays start at address 0 of their
    memory; [int] is 4 bytes, little-endian, [size_t] 64 bits. *)
From Verif Require Import Base M_MemoryView.

Definition int_bytes (n : Z) : list Z := [n mod 256; n / 256 mod 256; n / 65536 mod 256; n / 16777216 mod 256].
Definition arr : list Z := concat (map int_bytes [1; 2; 3; 4; 5]).
Definition arr_view : view := view_of_array 0 5.
(** [v[i] == x] of a view of ints *)
Definition at_is (v : view) (i x : Z) : Prop := v_at 4 arr v i = Ok (int_bytes x).

(** MemoryViewTest.cpp:6-12 *)
Example DefaultConstructor :
  v_size view_empty = 0 /\ v_begin view_empty = None /\ v_end 1 view_empty = Ok None.
Proof. repeat split. Qed.
(** MemoryViewTest.cpp:14-21, 32-39 *)
Example Constructor :
  let v := view_ptr_size (Some 0) 3 in v_size v = 3 /\ v_begin v = Some 0 /\ v_end 1 v = Ok (Some 3).
Proof. repeat split. Qed.
Example ArraySizeDeduction :
  let v := view_of_array 0 3 in v_size v = 3 /\ v_begin v = Some 0 /\ v_end 1 v = Ok (Some 3).
Proof. repeat split. Qed.
(** MemoryViewTest.cpp:41-51 *)
Example OperatorStringView :
  let v := view_of_array 0 3 in
  v_string_view v = (Some 0, 3) /\ v_iterate 1 [65; 48; 49] v = Ok [[65]; [48]; [49]].
Proof. repeat split. Qed.
(** MemoryViewTest.cpp:53-72 *)
Example OperatorIndex :
  let v := view_ptr_size (Some 0) 3 in
  v_at 1 [1; 2; 3] v 0 = Ok [1] /\ v_at 1 [1; 2; 3] v 1 = Ok [2] /\ v_at 1 [1; 2; 3] v 2 = Ok [3].
Proof. repeat split. Qed.
(** MemoryViewTest.cpp:74-114 *)
Example BeginEnd : v_iterate 4 arr arr_view = Ok (map int_bytes [1; 2; 3; 4; 5]).
Proof. vm_compute. reflexivity. Qed.
Example RbeginRend : v_riterate 4 arr arr_view = Ok (map int_bytes [5; 4; 3; 2; 1]).
Proof. vm_compute. reflexivity. Qed.
(** MemoryViewTest.cpp:116-130 *)
Example Subspan :
  (exists v, v_subspan 64 4 arr_view 1 3 = Ok v /\ v_size v = 3 /\ at_is v 0 2 /\ at_is v 2 4) /\
  (exists v, v_subspan 64 4 arr_view 3 (NPOS 64) = Ok v /\ v_is_empty v = false /\ v_size v = 2 /\ at_is v 0 4 /\ at_is v 1 5) /\
  (exists v, v_subspan 64 4 arr_view 5 (NPOS 64) = Ok v /\ v_is_empty v = true) /\
  (exists v, v_subspan 64 4 arr_view 6 (NPOS 64) = Ok v /\ v_is_empty v = true).
Proof. repeat split; eexists; repeat split; vm_compute; reflexivity. Qed.
(** MemoryViewTest.cpp:132-148 *)
Example AsBytes :
  let b := v_as_bytes 64 4 arr_view in
  v_size b = 20 /\ v_at 1 arr b 0 = Ok [1] /\ v_at 1 arr b 4 = Ok [2].
Proof. repeat split. Qed.
Example AsWritableBytes :
  let b := v_as_bytes 64 4 arr_view in
  v_size b = 20 /\ exists m, v_put 1 arr b 4 [10] = Ok m /\ v_at 4 m arr_view 1 = Ok (int_bytes 10).
Proof. split; [reflexivity|]. eexists; split; vm_compute; reflexivity. Qed.
(** MemoryViewTest.cpp:150-175 *)
Example First :
  (v_size (v_first arr_view 3) = 3 /\ at_is (v_first arr_view 3) 0 1) /\
  (v_size (v_first arr_view 5) = 5 /\ at_is (v_first arr_view 5) 0 1) /\
  (v_size (v_first arr_view 6) = 5 /\ at_is (v_first arr_view 6) 0 1).
Proof. repeat split. Qed.
Example Last :
  (exists v, v_last 4 arr_view 3 = Ok v /\ v_size v = 3 /\ at_is v 0 3) /\
  (exists v, v_last 4 arr_view 5 = Ok v /\ v_size v = 5 /\ at_is v 0 1) /\
  (exists v, v_last 4 arr_view 6 = Ok v /\ v_size v = 5 /\ at_is v 0 1).
Proof. repeat split; eexists; repeat split; vm_compute; reflexivity. Qed.
