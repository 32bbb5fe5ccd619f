(** Property theorems C01, C02. *)
From Verif Require Import Base M_MemoryView S_MemoryView L_MemoryView.

(** C01 *)
Theorem C01_subspan : forall W esz m v off cnt,
  0 < esz -> view_ok W esz m v -> 0 <= off < SIZE_LIMIT W -> 0 <= cnt < SIZE_LIMIT W ->
  exists v', v_subspan W esz v off cnt = Ok v' /\ view_ok W esz m v' /\
             view_elems esz m v' = takeZ cnt (dropZ off (view_elems esz m v)) /\
             range_inside esz v' v.
Proof. exact subspan_exact. Qed.
Print Assumptions C01_subspan.

Theorem C01_first : forall W esz m v cnt,
  0 < esz -> view_ok W esz m v -> 0 <= cnt < SIZE_LIMIT W ->
  view_ok W esz m (v_first v cnt) /\
  view_elems esz m (v_first v cnt) = takeZ cnt (view_elems esz m v) /\
  range_inside esz (v_first v cnt) v.
Proof. exact first_exact. Qed.
Print Assumptions C01_first.

Theorem C01_last : forall W esz m v cnt,
  0 < esz -> view_ok W esz m v -> 0 <= cnt < SIZE_LIMIT W ->
  exists v', v_last esz v cnt = Ok v' /\ view_ok W esz m v' /\
             view_elems esz m v' = dropZ (Z.max 0 (vsize v - cnt)) (view_elems esz m v) /\
             range_inside esz v' v.
Proof. exact last_exact. Qed.
Print Assumptions C01_last.

(** non-vacuity: a view of three 2-byte elements inside an 8-byte memory *)
Definition ex_mem : list Z := [10; 11; 20; 21; 30; 31; 40; 41].
Definition ex_view : view := mkview (Some 2) 3.
Example C01_hyps : view_ok 32 2 ex_mem ex_view /\ view_elems 2 ex_mem ex_view = [[20; 21]; [30; 31]; [40; 41]].
Proof. split; [split; vm_compute; repeat split; discriminate|reflexivity]. Qed.
Example C01_run : v_subspan 32 2 ex_view 1 7 = Ok (mkview (Some 4) 2) /\
  view_elems 2 ex_mem (mkview (Some 4) 2) = [[30; 31]; [40; 41]] /\
  v_subspan 32 2 ex_view 3 (SIZE_LIMIT 32 - 1) = Ok view_empty /\ v_last 2 ex_view 2 = Ok (mkview (Some 4) 2).
Proof. repeat split. Qed.

(** C02 *)
Theorem C02_as_bytes : forall W esz m v,
  0 < esz -> view_ok W esz m v -> zlen m < SIZE_LIMIT W ->
  vptr (v_as_bytes W esz v) = vptr v /\ vsize (v_as_bytes W esz v) = vsize v * esz /\
  view_ok W 1 m (v_as_bytes W esz v) /\
  concat (view_elems 1 m (v_as_bytes W esz v)) = concat (view_elems esz m v).
Proof. exact as_bytes_exact. Qed.
Print Assumptions C02_as_bytes.

(** writing byte [k] through the byte view changes that one byte of the memory: byte [k mod esz] of
    element [k / esz] *)
Theorem C02_write_through_bytes : forall W esz m v k x,
  0 < esz -> view_ok W esz m v -> zlen m < SIZE_LIMIT W -> 0 <= k < vsize v * esz ->
  exists a m', vptr v = Some a /\ v_put 1 m (v_as_bytes W esz v) k [x] = Ok m' /\ zlen m' = zlen m /\
  (forall j, 0 <= j < zlen m -> nthZ m' j = if j =? a + k then x else nthZ m j) /\
  forall i, 0 <= i < vsize v ->
    nth (Z.to_nat i) (view_elems esz m' v) [] =
      let e := nth (Z.to_nat i) (view_elems esz m v) [] in
      if i =? k / esz then blit e (k mod esz) [x] else e.
Proof. exact put_byte_exact. Qed.
Print Assumptions C02_write_through_bytes.

Theorem C02_access : forall W esz m v,
  0 < esz -> view_ok W esz m v ->
  v_iterate esz m v = Ok (view_elems esz m v) /\
  v_riterate esz m v = Ok (rev (view_elems esz m v)) /\
  zlen (view_elems esz m v) = v_size v /\
  (v_is_empty v = true <-> view_elems esz m v = []) /\
  (forall i, 0 <= i < vsize v -> v_at esz m v i = Ok (nth (Z.to_nat i) (view_elems esz m v) [])) /\
  (vsize v <> 0 -> v_front esz m v = Ok (hd [] (view_elems esz m v)) /\
                   v_back esz m v = Ok (last (view_elems esz m v) [])).
Proof. exact access_exact. Qed.
Print Assumptions C02_access.

Theorem C02_compose : forall W esz v a b v1 v2,
  0 < esz -> 0 <= a -> 0 <= b -> 0 <= vsize v < SIZE_LIMIT W - 1 ->
  v_subspan W esz v a (SIZE_LIMIT W - 1) = Ok v1 -> v_subspan W esz v1 b (SIZE_LIMIT W - 1) = Ok v2 ->
  v_subspan W esz v (a + b) (SIZE_LIMIT W - 1) = Ok v2.
Proof. exact subspan_subspan. Qed.
Print Assumptions C02_compose.

Theorem C02_split : forall W esz m v n,
  0 < esz -> view_ok W esz m v -> 0 <= n <= vsize v ->
  exists w, v_last esz v (vsize v - n) = Ok w /\
    view_elems esz m (v_first v n) ++ view_elems esz m w = view_elems esz m v.
Proof. exact first_last_split. Qed.
Print Assumptions C02_split.

(** begin(), end() and the conversion to a string_view denote the range of the view *)
Theorem C02_range : forall W esz m v, 0 < esz -> view_ok W esz m v ->
  v_string_view v = (v_begin v, v_size v) /\
  match v_begin v with
  | Some a => v_end esz v = Ok (Some (a + v_size v * esz)) /\
              slice m a (v_size v * esz) = concat (view_elems esz m v)
  | None => v_end esz v = Ok None /\ v_size v = 0
  end.
Proof. exact range_exact. Qed.
Print Assumptions C02_range.

(** the (begin, end) constructor covers exactly the elements between the two pointers *)
Theorem C02_begin_end : forall esz b n, 0 < esz -> 0 <= n ->
  view_begin_end esz b (b + n * esz) = mkview (Some b) n /\
  v_end esz (view_begin_end esz b (b + n * esz)) = Ok (Some (b + n * esz)).
Proof. exact begin_end_exact. Qed.
Print Assumptions C02_begin_end.

(** a view made of an array, of a pointer and a size or of two pointers has exactly the elements of the
    array, wherever this is in the memory; the view made of nothing has none *)
Theorem C02_made : forall W esz pre elems post, 0 < W -> 0 < esz -> Forall (fun e => zlen e = esz) elems -> zlen elems < SIZE_LIMIT W ->
  let m := pre ++ concat elems ++ post in
  (forall v, In v [view_of_array (zlen pre) (zlen elems); view_ptr_size (Some (zlen pre)) (zlen elems);
                   view_begin_end esz (zlen pre) (zlen pre + zlen elems * esz)] ->
     view_ok W esz m v /\ view_elems esz m v = elems) /\
  view_ok W esz m view_empty /\ view_elems esz m view_empty = [].
Proof.
  intros W esz pre elems post HW He HF HL m. split.
  - intros v H. apply made_exact; [exact He|exact HF|exact HL|]. destruct H as [<-|[<-|[<-|[]]]]; [reflexivity|reflexivity|].
    apply begin_end_exact; [exact He|apply zlen_nonneg].
  - split; [|reflexivity]. split; [|reflexivity]. cbn [view_empty vsize]. unfold SIZE_LIMIT. split; [lia|]. apply Z.pow_pos_nonneg; lia.
Qed.
Print Assumptions C02_made.
Example C02_made_case : Forall (fun e => zlen e = 2) [[20; 21]; [30; 31]; [40; 41]] /\ ex_mem = [10; 11] ++ concat [[20; 21]; [30; 31]; [40; 41]] ++ [] /\
  view_of_array 2 3 = ex_view.
Proof. repeat split; repeat constructor. Qed.

Example C02_run : v_put 1 ex_mem (v_as_bytes 32 2 ex_view) 3 [99] = Ok [10; 11; 20; 21; 30; 99; 40; 41] /\
  v_iterate 2 ex_mem ex_view = Ok [[20; 21]; [30; 31]; [40; 41]] /\
  v_riterate 2 ex_mem ex_view = Ok [[40; 41]; [30; 31]; [20; 21]].
Proof. repeat split. Qed.
Example C02_compose_hyps : exists v1 v2, v_subspan 32 2 ex_view 1 (SIZE_LIMIT 32 - 1) = Ok v1 /\ v_subspan 32 2 v1 1 (SIZE_LIMIT 32 - 1) = Ok v2 /\ vsize v2 = 1.
Proof. eexists; eexists; repeat split. Qed.
