(** Property theorem C19 (SerialOut). *)
From Flocq Require Import Core IEEE754.Binary IEEE754.Bits.
From Verif Require Import Base S_BufferedOut M_BufferedOut M_SerialOut L_BufferedOut L_BufferedOut3 L_SerialOut.
Open Scope Z_scope.

(** one line, any insertions (floats and single bytes included): [b] is what BufferedOut holds *)
Theorem C19_line : forall os is s b, forwards os is -> 0 <= size (buf s) <= capacity (buf s) -> Forall well_formed is ->
  1 <= capacity (buf s) <= 65535 -> run is (buf s) = Ok b ->
  exists b', srun (os ++ [SEndl]) s =
      Ok (So b' (sent s ++ (if size b =? capacity b then [asStringView b; [10]] else [asStringView b ++ [10]]))) /\
    size b' = 0 /\ prec b' = 0 /\ wid b' = 0 /\ fillc b' = 32 /\ capacity b' = capacity (buf s).
Proof.
  intros os is s b Hf Hs Hw Hc E. destruct (line_ok os is s Hf Hs Hw Hc) as [_ H].
  destruct (H b E) as (b' & E' & (C1 & C2 & C3 & C4) & Cp). destruct (run_inside _ _ _ Hs Hw E) as [Ib Cb].
  exists b'. split; [|auto 8]. rewrite E'. unfold line_packets. rewrite text_len by exact Ib. rewrite Cb. reflexivity.
Qed.
Print Assumptions C19_line.
Theorem C19_end : forall s, 0 <= size (buf s) <= capacity (buf s) -> capacity (buf s) <= 65535 ->
  exists b', sstep SEnd s = Ok (So b' (sent s ++ [asStringView (buf s)])) /\
    size b' = 0 /\ prec b' = 0 /\ wid b' = 0 /\ fillc b' = 32 /\ capacity b' = capacity (buf s).
Proof.
  intros [b l] Hs Hc. destruct (end_step b l Hs Hc) as (b' & E & (C1 & C2 & C3 & C4) & Cp). exists b'. auto 8.
Qed.
Print Assumptions C19_end.
(** any number of lines: the byte stream is the clipped text of each line followed by a newline, one
    packet for each line (two when the text fills the buffer) *)
Theorem C19_lines : forall lines items buffer, Forall2 (Forall2 sprints) lines items -> 1 <= zlen buffer <= 65535 ->
  exists s' texts, srun (concat (map (fun l => l ++ [SEndl]) lines)) (So (create buffer) []) = Ok s' /\
    Forall2 (clipped_all (zlen buffer)) items texts /\
    sent s' = flat_map (fun t => if zlen t =? zlen buffer then [t; [10]] else [t ++ [10]]) texts /\
    concat (sent s') = concat (map (fun t => t ++ [10]) texts) /\ size (buf s') = 0.
Proof.
  intros lines items buffer H Hc. destruct (lines_ok lines items H (So (create buffer) [])) as (s' & texts & E & F & S & _ & C & _).
  { repeat split. } { exact Hc. }
  exists s', texts. split; [exact E|]. split; [exact F|]. split; [exact S|]. split; [rewrite S; apply concat_packets|apply C].
Qed.
Print Assumptions C19_lines.
Example C19_run :
  match srun [SCStr [65;66;0]; SInt 7 []; SEndl; SSpan [171]; SEndl] (So (create (repeat 0 3)) []) with
  | Ok s => sent s = [[65;66;55]; [10]; [65;66;10]] | _ => False end.
Proof. vm_compute. reflexivity. Qed.
Example C19_hyp : Forall2 (Forall2 sprints) [[SCStr [65;66;0]; SInt 7 []]; [SSpan [171]]] [[CText [65;66;0]; Number 7]; [HexBytes [171]]].
Proof.
  constructor; [|constructor; [|constructor]].
  - constructor; [constructor; cbn; tauto|]. constructor; [constructor|constructor].
  - constructor; [constructor; apply Forall_cons; [unfold is_byte; lia|apply Forall_nil]|constructor].
Qed.
