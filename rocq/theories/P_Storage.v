(** Property theorems C05 - C11 (PersistentStorage). *)
From Verif Require Import Base M_Storage S_Storage L_Storage L_Storage2 L_Storage3 L_Storage4 L_Storage5.

(** C05: every history of calls on a freshly initialised region is answered exactly as by the reference map
    (in particular no call runs out of bounds or loops: the result is [Ok]). *)
Theorem C05_finite_map : forall fuel b0 ops,
  zlen b0 < 4294967296 -> (length b0 < fuel)%nat -> Forall op_ok ops -> Forall short_name ops ->
  exists s, exec fuel (ctor_init b0) ops = Ok (fst (r_exec (r_init (zlen b0)) ops), s).
Proof. exact storage_is_map. Qed.
Print Assumptions C05_finite_map.

Definition ex_ops : list op :=
  [OSet [97] [1; 2]; OGet [97] 2; OGet [97] 3; OSet [97] [3; 4]; OReopen; OGet [97] 2; OSet [98; 99] [5; 6; 7];
   OSet [97; 0] [8; 9]; OGet [97] 2; OSet [100] [1; 1; 1]].
Example C05_hyps : Forall op_ok ex_ops /\ Forall short_name ex_ops.
Proof.
  split; repeat (apply Forall_cons; [cbn; unfold bytes, is_byte, short_name, zlen; cbn;
    repeat split; try lia; repeat (apply Forall_cons; [lia|]); try apply Forall_nil|]); apply Forall_nil.
Qed.
Example C05_run : exec 21 (ctor_init (repeat 99 20)) ex_ops =
  Ok ([ABool true; AOpt (Some [1; 2]); AOpt None; ABool true; AUnit; AOpt (Some [3; 4]); ABool true; ABool true;
       AOpt (Some [8; 9]); ABool false],
      mkst [8; 0; 97; 0; 0; 0; 8; 9; 9; 0; 98; 99; 0; 0; 5; 6; 7; 0; 0; 0] 17).
Proof. vm_compute. reflexivity. Qed.

(** C06 *)
Theorem C06_set_fails_iff_full : forall fuel s m name obj,
  reachable_map fuel s m -> zlen name <= 4 -> zlen obj <= 65529 ->
  exists b s', set fuel s name obj = Ok (b, s') /\
    (b = false <-> r_get m name (zlen obj) = None /\ r_cap m < r_used m + 6 + zlen obj) /\
    (b = false -> s' = s) /\ zlen (buf s') = zlen (buf s) /\ r_cap m = zlen (buf s).
Proof. exact set_false_iff. Qed.
Print Assumptions C06_set_fails_iff_full.
Theorem C06_used_space : forall fuel s m, reachable_map fuel s m ->
  exists ks, NoDup ks /\ (forall k n, zlen k = 4 -> (In (k, n) ks <-> r_map m k n <> None)) /\
             r_used m = fold_right (fun k acc => 6 + snd k + acc) 0 ks.
Proof. exact (fun fuel s m H => sim_space s m (proj1 (reachable_map_sim fuel s m H))). Qed.
Print Assumptions C06_used_space.
Theorem C06_overwrite_free : forall fuel s name obj v, reachable fuel s -> zlen obj <= 65529 ->
  get fuel s name (zlen obj) = Ok (Some v) ->
  exists s', set fuel s name obj = Ok (true, s') /\ head s' = head s.
Proof. exact overwrite_space. Qed.
Print Assumptions C06_overwrite_free.
Example C06_hyps : exists s m, reachable_map 21 s m /\ set 21 s [100] [1; 1; 1] = Ok (false, s).
Proof.
  eexists _, _. split.
  - exists (repeat 99 20), ex_ops. eexists. split; [reflexivity|]. split; [cbn; lia|].
    split; [apply C05_hyps|]. split; [apply C05_hyps|]. split; [exact C05_run|reflexivity].
  - vm_compute. reflexivity.
Qed.

(** C07: reopening gives back the very same state, hence the same answers ever after *)
Theorem C07_reopen_identity : forall fuel s, reachable fuel s -> ctor_open fuel (buf s) = Ok s.
Proof. exact reopen_same. Qed.
Print Assumptions C07_reopen_identity.
Example C07_run : ctor_open 21 [8; 0; 97; 0; 0; 0; 8; 9; 9; 0; 98; 99; 0; 0; 5; 6; 7; 0; 0; 0] =
  Ok (mkst [8; 0; 97; 0; 0; 0; 8; 9; 9; 0; 98; 99; 0; 0; 5; 6; 7; 0; 0; 0] 17).
Proof. vm_compute. reflexivity. Qed.
Example C07_hyps : exists s, reachable 21 s /\ head s = 17.
Proof.
  eexists. split; [|shelve]. exists (repeat 99 20), ex_ops. eexists. split; [reflexivity|]. split; [cbn; lia|].
  split; [apply C05_hyps|exact C05_run]. Unshelve. reflexivity.
Qed.

(** C08 *)
Theorem C08_open_any_bytes : forall fuel b,
  bytes b -> zlen b < 4294967296 -> (length b < fuel)%nat ->
  exists h, ctor_open fuel b = Ok (mkst b h) /\ 0 <= h <= zlen b /\
    (forall ops, Forall op_ok ops -> Forall is_get ops -> exists l, exec fuel (mkst b h) ops = Ok (l, mkst b h)) /\
    (~ ends_in_one_byte_record b h -> forall ops, Forall op_ok ops -> Forall not_reopen ops ->
       exists l s', exec fuel (mkst b h) ops = Ok (l, s')).
Proof. exact open_arbitrary. Qed.
Print Assumptions C08_open_any_bytes.
(** without the exclusion the claim is false: the next lookup may hang ... *)
Theorem C08_refuted_hang : exists b obj s s',
  bytes b /\ ctor_open 1000 b = Ok s /\ set 1000 s [97] obj = Ok (true, s') /\
  forall fuel, get fuel s' [98] 4 = Fuel.
Proof. exact (ex_intro _ dmg_hang (ex_intro _ dmg_obj dmg_hangs)). Qed.
Print Assumptions C08_refuted_hang.
(** ... or leave the buffer *)
Theorem C08_refuted_out_of_bounds : exists b obj s s',
  bytes b /\ ctor_open 1000 b = Ok s /\ set 1000 s [97] obj = Ok (true, s') /\
  get 1000 s' [98] 294 = UB /\ set 1000 s' [98] (repeat 7 294) = UB.
Proof. exact (ex_intro _ dmg_oob (ex_intro _ dmg_obj2 dmg_out_of_bounds)). Qed.
Print Assumptions C08_refuted_out_of_bounds.
(** exactly: whatever sequence of calls on objects of at least one byte follows, it goes well unless the chain
    ends in a one-byte record and a record with an object of one byte still fits *)
Theorem C08_exact : forall fuel b h,
  bytes b -> zlen b < 4294967296 -> (length b < fuel)%nat -> ctor_open fuel b = Ok (mkst b h) ->
  ((forall ops, Forall op_ok ops -> Forall object_op ops -> Forall not_reopen ops ->
      exists l s', exec fuel (mkst b h) ops = Ok (l, s')) <->
   ~ (ends_in_one_byte_record b h /\ h + 7 <= zlen b)).
Proof. exact open_exact. Qed.
Print Assumptions C08_exact.
(** one byte of room decides *)
Example C08_exact_full : ctor_open 8 [1; 0; 0; 0; 0; 0; 0] = Ok (mkst [1; 0; 0; 0; 0; 0; 0] 1) /\
  ends_in_one_byte_record [1; 0; 0; 0; 0; 0; 0] 1 /\ ~ 1 + 7 <= zlen [1; 0; 0; 0; 0; 0; 0].
Proof. split; [vm_compute; reflexivity|]. split; [|vm_compute; congruence]. split; [apply chain_nil|]. split; [lia|reflexivity]. Qed.
Example C08_exact_room : ctor_open 9 [1; 0; 0; 0; 0; 0; 0; 0] = Ok (mkst [1; 0; 0; 0; 0; 0; 0; 0] 1) /\
  ends_in_one_byte_record [1; 0; 0; 0; 0; 0; 0; 0] 1 /\ 1 + 7 <= zlen [1; 0; 0; 0; 0; 0; 0; 0] /\
  exec 9 (mkst [1; 0; 0; 0; 0; 0; 0; 0] 1) [OSet [97; 98; 99; 0; 1] [5]; OGet [0; 97; 98; 99] 1787] = UB.
Proof.
  split; [vm_compute; reflexivity|]. split; [|split; vm_compute; congruence].
  split; [apply chain_nil|]. split; [lia|reflexivity].
Qed.
(** a corrupt region with overlapping records that still meets the hypotheses *)
Example C08_hyps : ctor_open 13 [3; 0; 0; 2; 0; 7; 7; 7; 7; 7; 7; 7] = Ok (mkst [3; 0; 0; 2; 0; 7; 7; 7; 7; 7; 7; 7] 5).
Proof. vm_compute. reflexivity. Qed.
Example C08_hyps_end : ~ ends_in_one_byte_record [3; 0; 0; 2; 0; 7; 7; 7; 7; 7; 7; 7] 5.
Proof. intros (_ & _ & H). vm_compute in H. discriminate. Qed.

(** C09 *)
Theorem C09_any_subset : forall fuel s name obj s' b',
  reachable fuel s -> zlen obj <= 65529 ->
  set fuel s name obj = Ok (true, s') -> crash_any (buf s) (buf s') b' -> bytes b' ->
  exists s'', ctor_open fuel b' = Ok s'' /\
    forall name2 n2 v, (zlen name <= 4 -> (pad4 name2, n2) <> (pad4 name, zlen obj)) ->
      get fuel s name2 n2 = Ok (Some v) -> get fuel s'' name2 n2 = Ok (Some v).
Proof. exact crash_any_others. Qed.
Print Assumptions C09_any_subset.
Theorem C09_ordered_histories : forall fuel b0 es l s,
  zlen b0 < 4294967296 -> (length b0 < fuel)%nat -> Forall event_ok es ->
  mrun fuel (ctor_init b0) es l s ->
  exists m, rrun (r_init (zlen b0)) es l m /\
    forall ops, Forall op_ok ops -> Forall short_name ops ->
      exists s', exec fuel s ops = Ok (fst (r_exec m ops), s').
Proof. exact crash_history. Qed.
Print Assumptions C09_ordered_histories.
Theorem C09_progress : forall fuel b0 es l s name obj,
  zlen b0 < 4294967296 -> (length b0 < fuel)%nat -> Forall event_ok es ->
  mrun fuel (ctor_init b0) es l s -> zlen name <= 4 -> zlen obj <= 65529 ->
  exists p, set_plan fuel s name obj = Ok p /\
    forall ws h b', p = Some (ws, h) -> crash_ordered (buf s) ws b' -> exists s', ctor_open fuel b' = Ok s'.
Proof. exact crash_progress. Qed.
Print Assumptions C09_progress.
(** a crash in the middle of writing the object *)
Example C09_run : exists s, mrun 21 (ctor_init (repeat 0 20)) [EOp (OSet [97] [1; 2]); ECrash [98] [7; 8]; EOp (OGet [98] 2)]
   [ABool true; AUnit; AOpt (Some [0; 8])] s.
Proof.
  eexists. eapply mr_cons; [apply ms_op; vm_compute; reflexivity|].
  eapply mr_cons.
  - eapply ms_crash; [vm_compute; reflexivity| |].
    + eapply co_after; [vm_compute; reflexivity|]. eapply co_after; [vm_compute; reflexivity|].
      eapply co_inside; [reflexivity|vm_compute; reflexivity|].
      instantiate (1 := [8; 0; 97; 0; 0; 0; 1; 2; 8; 0; 98; 0; 0; 0; 0; 8; 0; 0; 0; 0]).
      apply mixb_mix. reflexivity.
    + vm_compute. reflexivity.
  - eapply mr_cons; [apply ms_op; vm_compute; reflexivity|]. constructor.
Qed.
(** the same for names of any length *)
Theorem C09_any_names : forall fuel b0 es l s,
  zlen b0 < 4294967296 -> (length b0 < fuel)%nat -> Forall valid_event es -> mrun fuel (ctor_init b0) es l s ->
  exists m, any_run (r_init (zlen b0)) es l m /\
    (forall ops, Forall op_ok ops -> exists s', exec fuel s ops = Ok (fst (any_exec m ops), s')) /\
    forall name obj, zlen obj <= 65529 -> exists p, set_plan fuel s name obj = Ok p /\
      forall ws h b', p = Some (ws, h) -> crash_ordered (buf s) ws b' -> exists s', ctor_open fuel b' = Ok s'.
Proof. exact any_names_crashes. Qed.
Print Assumptions C09_any_names.
Example C09_any_names_case : exists s, mrun 30 (ctor_init (repeat 0 29))
   [EOp (OSet [97; 98; 99; 100] [1]); ECrash [97; 98; 99; 100; 101] [7]; EOp (OGet [97; 98; 99; 100] 1); ECrash [97; 98; 99; 100; 101] [7; 8];
    EOp (OGet [97; 98; 99; 100] 2); EOp (OGet [97; 98; 99; 100; 101] 2); EOp (OSet [99] [5])]
   [ABool true; AUnit; AOpt (Some [1]); AUnit; AOpt (Some [7; 0]); AOpt None; ABool true] s.
Proof.
  eexists. eapply mr_cons; [apply ms_op; vm_compute; reflexivity|].
  eapply mr_cons.
  { eapply ms_crash; [vm_compute; reflexivity| |].
    - eapply co_after; [vm_compute; reflexivity|]. eapply co_after; [vm_compute; reflexivity|]. apply co_before.
    - vm_compute. reflexivity. }
  eapply mr_cons; [apply ms_op; vm_compute; reflexivity|].
  eapply mr_cons.
  { eapply ms_crash; [vm_compute; reflexivity| |].
    - eapply co_after; [vm_compute; reflexivity|]. eapply co_after; [vm_compute; reflexivity|].
      eapply co_inside; [reflexivity|vm_compute; reflexivity|].
      instantiate (1 := [7; 0; 97; 98; 99; 100; 1; 7; 0; 97; 98; 99; 100; 0; 8; 0; 97; 98; 99; 100; 7; 0; 0; 0; 0; 0; 0; 0; 0]).
      apply mixb_mix. reflexivity.
    - vm_compute. reflexivity. }
  eapply mr_cons; [apply ms_op; vm_compute; reflexivity|].
  eapply mr_cons; [apply ms_op; vm_compute; reflexivity|].
  eapply mr_cons; [apply ms_op; vm_compute; reflexivity|]. constructor.
Qed.

(** C10 *)
Theorem C10_readback_iff_short : forall fuel s name obj s', reachable fuel s -> zlen obj <= 65529 ->
  set fuel s name obj = Ok (true, s') ->
  get fuel s' name (zlen obj) = Ok (if zlen name <=? 4 then Some obj else None).
Proof. exact set_then_get. Qed.
Print Assumptions C10_readback_iff_short.
Theorem C10_long_never_found : forall fuel s name n, reachable fuel s -> 4 < zlen name -> get fuel s name n = Ok None.
Proof. exact long_name_get. Qed.
Print Assumptions C10_long_never_found.
Theorem C10_long_set : forall fuel s name obj, reachable fuel s -> 4 < zlen name -> zlen obj <= 65529 ->
  exists s', set fuel s name obj = Ok (head s + 6 + zlen obj <=? zlen (buf s), s') /\
    (head s + 6 + zlen obj <= zlen (buf s) -> head s' = head s + 6 + zlen obj) /\
    (head s + 6 + zlen obj <= zlen (buf s) -> get fuel s (firstn 4 name) (zlen obj) = Ok None ->
       get fuel s' (firstn 4 name) (zlen obj) = Ok (Some obj)).
Proof. exact long_name_set. Qed.
Print Assumptions C10_long_set.
(** every history of calls with names of any length *)
Theorem C10_any_names : forall fuel b0 ops,
  zlen b0 < 4294967296 -> (length b0 < fuel)%nat -> Forall op_ok ops ->
  exists s, exec fuel (ctor_init b0) ops = Ok (fst (any_exec (r_init (zlen b0)) ops), s).
Proof. exact any_names. Qed.
Print Assumptions C10_any_names.
Example C10_any_names_case :
  let ops := [OSet [97; 98; 99; 100; 101] [1; 2]; OSet [97; 98; 99; 100; 102] [3; 4]; OGet [97; 98; 99; 100] 2; OSet [97; 98; 99; 100] [5; 6];
              OGet [97; 98; 99; 100] 2; OGet [97; 98; 99; 100; 101] 2; OSet [97; 98; 99; 100; 101] [7; 8]; OSet [97; 98; 99; 100] [9; 9]] in
  let l := [ABool true; ABool true; AOpt (Some [1; 2]); ABool true; AOpt (Some [5; 6]); AOpt None; ABool false; ABool true] in
  fst (any_exec (r_init 20) ops) = l /\
  exists s, exec 21 (ctor_init (repeat 99 20)) ops = Ok (l, s).
Proof. cbn zeta. split; [vm_compute; reflexivity|]. eexists. vm_compute. reflexivity. Qed.
Example C10_run : exec 41 (ctor_init (repeat 0 40))
   [OSet [97; 98; 99; 100; 101] [1; 2]; OGet [97; 98; 99; 100; 101] 2; OGet [97; 98; 99; 100] 2; OSet [97; 98; 99; 100; 101] [3; 4]]
  = Ok ([ABool true; AOpt None; AOpt (Some [1; 2]); ABool true],
        mkst ([8; 0; 97; 98; 99; 100; 1; 2; 8; 0; 97; 98; 99; 100; 3; 4] ++ repeat 0 24) 16).
Proof. vm_compute. reflexivity. Qed.

(** C11 *)
Theorem C11_big_never_found : forall fuel s name n, bytes (buf s) -> head s <= zlen (buf s) -> 65530 <= n ->
  get fuel s name n = Ok None \/ get fuel s name n = Fuel.
Proof. exact big_get. Qed.
Print Assumptions C11_big_never_found.
Theorem C11_big_set : forall fuel s name obj, reachable fuel s -> 65530 <= zlen obj ->
  head s + 6 + zlen obj <= zlen (buf s) ->
  exists s', set fuel s name obj = Ok (true, s') /\
    size_at (buf s') (head s) = (6 + zlen obj) mod 65536 /\ head s' = head s + 6 + zlen obj /\
    zlen (buf s') = zlen (buf s) /\
    ((6 + zlen obj) mod 65536 = 0 ->
       forall name2 n2, 0 <= n2 -> get fuel s name2 n2 = Ok None -> forall fuel', get fuel' s' name2 n2 = Fuel).
Proof. exact big_set. Qed.
Print Assumptions C11_big_set.
(** the hypotheses are met by a fresh 70000-byte region and a 65530-byte object *)
Example C11_hyps : let s := ctor_init (repeat 0 (Z.to_nat 70000)) in
  reachable (Z.to_nat 70001) s /\ head s + 6 + 65530 <= zlen (buf s) /\ (6 + 65530) mod 65536 = 0.
Proof.
  cbv zeta. split; [|split].
  - exists (repeat 0 (Z.to_nat 70000)), [], []. rewrite zlen_repeat, repeat_length.
    split; [lia|]. split; [lia|]. split; [constructor|reflexivity].
  - cbn [ctor_init buf head]. rewrite zlen_repeat, repeat_length. lia.
  - reflexivity.
Qed.
