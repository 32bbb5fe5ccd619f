(** Specification vocabulary for debug output. *)
From Verif Require Import Base M_Debug.

(** the bytes that leave: of each write as many as the driver took *)
Definition bytes_out (calls : list uartCall) : list Z :=
  flat_map (fun c => match c with WriteBytes bs r => firstn (Z.to_nat r) bs | WaitDone => [] end) calls.
(** a debug line: the text and a newline; a text that fills the 128 bytes goes out on its own first *)
Definition pieces_of (text : list Z) : list (list Z) := if zlen text =? 128 then [text; [10]] else [text ++ [10]].
