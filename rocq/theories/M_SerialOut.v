(** Model of SerialOut.h with arduino/SerialOut.cpp:4-9 and esp32-esp-idf/SerialOut.cpp:4-9 (identical
    bodies). *)
From Flocq Require Import IEEE754.Bits.
From Verif Require Import Base M_BufferedOut.

(** SerialOut.h:105-106.  [sent] is the list of byte blocks passed to [PacketUart::Send], oldest first;
    what the UART does with them, and Send's ignored return value, are not part of this model. *)
Record so : Type := So { buf : bo; sent : list (list Z) }.

(** arduino/SerialOut.cpp:4-9 *)
Definition flush (s : so) : so := So (clear (buf s)) (sent s ++ [data (buf s)]).

(** SerialOut.h:18-100; the integer overloads 31-65 are one constructor *)
Inductive sop : Type :=
| SCStr (str : list Z)
| SByte (b : Z)
| SInt (n : Z) (junk : list Z)
| SFloat (v : binary32) (junk : list Z)
| SPrecision (p : Z)
| SSpan (span : list Z)
| SEnd
| SEndl.

(** SerialOut.h:18-83: what is forwarded to [bufferedOut] *)
Definition inner (o : sop) : option op :=
  match o with
  | SCStr str => Some (OI (ICStr str))
  | SByte b => Some (OI (IByte b))
  | SInt n junk => Some (OI (IInt n junk))
  | SFloat v junk => Some (OFloat v junk)
  | SPrecision p => Some (OI (IPrecision p))
  | SSpan span => Some (OI (ISpan span))
  | SEnd | SEndl => None
  end.

Definition sstep (o : sop) (s : so) : res so :=
  match inner o with
  | Some i => do b <- step i (buf s); Ok (So b (sent s))
  | None =>
      match o with
      | SEndl => (* SerialOut.h:91-100 *)
          let s1 := if size (buf s) =? capacity (buf s) then flush s else s in
          do b <- addChar 10 (buf s1); Ok (flush (So b (sent s1)))
      | _ => Ok (flush s) (* SerialOut.h:85-89 *)
      end
  end.
Fixpoint srun (os : list sop) (s : so) : res so :=
  match os with [] => Ok s | o :: os' => do s' <- sstep o s; srun os' s' end.
