(** C77: several PersistentStorage objects over one region. *)
From Verif Require Import Base M_Storage S_Storage S_Handles L_Storage L_Storage2 L_Handles.

(** If entries are only added by objects that know of all entries, the objects share one map: every set
    is seen by all objects that know of the entry, and an object knows of the entries that were there when
    it was made or last added one itself. *)
Theorem C77_shared : forall fuel b0 ops,
  zlen b0 < 4294967296 -> (length b0 < fuel)%nat -> Forall hop_ok ops -> careful (r_fresh (zlen b0)) ops ->
  exists s, hexec fuel (fresh b0) ops = Ok (fst (rh_exec (r_fresh (zlen b0)) ops), s).
Proof.
  intros fuel b0 ops Hb Hf Ho HC. apply hinv_exec; [apply hinv_fresh; exact Hb| |exact Ho|exact HC].
  unfold enough. cbn [fresh region]. rewrite repeat_length. exact Hf.
Qed.
Print Assumptions C77_shared.
(** This is so if only one object sets entries, whatever the others read and whenever they are made. *)
Theorem C77_one_writer : forall fuel b0 w ops,
  zlen b0 < 4294967296 -> (length b0 < fuel)%nat -> Forall hop_ok ops -> Forall (writes_by w) ops ->
  exists s, hexec fuel (fresh b0) ops = Ok (fst (rh_exec (r_fresh (zlen b0)) ops), s).
Proof.
  intros fuel b0 w ops Hb Hf Ho HW. apply C77_shared; try assumption. apply (writer_careful w); [|exact HW].
  intros k n _ H. cbn in H. contradiction.
Qed.
Print Assumptions C77_one_writer.
(** Otherwise an entry that was set can be lost ... *)
Theorem C77_lost_refuted : exists b0 ops fuel s,
  (length b0 < fuel)%nat /\ Forall hop_ok ops /\
  hexec fuel (fresh b0) ops = Ok ([ABool true; ABool true; AOpt None; AUnit; AOpt None; AOpt (Some [2])], s) /\
  ops = [HSet 0 [97] [1]; HSet 1 [98] [2]; HGet 0 [97] 1; HOpen 2; HGet 2 [97] 1; HGet 2 [98] 1].
Proof.
  exists (repeat 0 40), [HSet 0 [97] [1]; HSet 1 [98] [2]; HGet 0 [97] 1; HOpen 2; HGet 2 [97] 1; HGet 2 [98] 1], 41%nat. eexists.
  split; [cbn; lia|]. split; [repeat constructor; cbn; lia|]. split; [vm_compute; reflexivity|reflexivity].
Qed.
Print Assumptions C77_lost_refuted.
(** ... and a later get can run forever: the size it reads is taken from the middle of the lost entry. *)
Theorem C77_hang_refuted : exists s,
  hexec 41 (fresh (repeat 0 40)) [HSet 0 [97] (repeat 0 10); HSet 1 [98] [2]] = Ok ([ABool true; ABool true], s) /\
  forall fuel, get fuel (object s 0) [99] 1 = Fuel.
Proof.
  eexists. split; [vm_compute; reflexivity|]. intros fuel. unfold get. cbn [object region heads Nat.eqb buf head].
  assert (L : forall f, getIdx f [7; 0; 98; 0; 0; 0; 2; 0; 0; 0; 0; 0; 0; 0; 0; 0; 0; 0; 0; 0; 0; 0; 0; 0; 0; 0; 0; 0; 0; 0; 0; 0; 0; 0; 0; 0; 0; 0; 0; 0] 16 [99] 1 7 = Fuel).
  { induction f as [|f IH]; [reflexivity|]. exact IH. }
  destruct fuel as [|fuel]; [reflexivity|]. change (getIdx (S fuel) ?b 16 [99] 1 0) with (getIdx fuel b 16 [99] 1 7). rewrite L. reflexivity.
Qed.
Print Assumptions C77_hang_refuted.
(** Object 0 adds two entries, 1 is made in between: it sees the later value of the first, can change it
    for both, but does not see the second until it is made anew. *)
Definition ex_handles : list hop :=
  [HSet 0 [97] [1]; HOpen 1; HSet 0 [98] [2; 3]; HSet 0 [97] [4]; HGet 1 [97] 1; HGet 1 [98] 2; HSet 1 [97] [5]; HGet 0 [97] 1; HOpen 1; HGet 1 [98] 2; HSet 1 [99] []].
Example C77_case : Forall hop_ok ex_handles /\ careful (r_fresh 40) ex_handles /\
  fst (rh_exec (r_fresh 40) ex_handles) =
    [ABool true; AUnit; ABool true; ABool true; AOpt (Some [4]); AOpt None; ABool true; AOpt (Some [5]); AUnit; AOpt (Some [2; 3]); ABool true].
Proof.
  split; [repeat constructor; cbn; lia|]. split; [|vm_compute; reflexivity].
  cbn [ex_handles careful careful_op]. split; [right; intros k n _ H; cbn in H; contradiction|]. split; [exact I|].
  split; [right; intros k n _ H; cbn in *; unfold all_keys; cbn; destruct (r_upd _ _ _ k n); [reflexivity|contradiction]|].
  split; [left; vm_compute; reflexivity|]. split; [exact I|]. split; [exact I|]. split; [left; vm_compute; reflexivity|]. split; [exact I|]. split; [exact I|]. split; [exact I|].
  split; [right|exact I]. intros k n _ H. cbn in *. unfold all_keys, learns in *. cbn in *. destruct (r_upd _ _ _ k n); [reflexivity|contradiction].
Qed.
