(** Specification of formatted text: decimal numerals, hexadecimal bytes, clipping. *)
From Verif Require Import Base.

(** value of a digit string, Horner's rule from the left *)
Fixpoint horner (acc : Z) (ds : list Z) : Z :=
  match ds with [] => acc | d :: ds' => horner (10 * acc + (d - 48)) ds' end.
Definition is_digit (c : Z) : Prop := 48 <= c <= 57.

(** [ds] is the canonical decimal numeral of [n >= 0] *)
Definition numeral (n : Z) (ds : list Z) : Prop :=
  ds <> [] /\ Forall is_digit ds /\ horner 0 ds = n /\ (nthZ ds 0 = 48 -> ds = [48]).
(** [t] is the canonical decimal text of the integer [n] *)
Definition dec_text (n : Z) (t : list Z) : Prop :=
  (0 <= n /\ numeral n t) \/ (n < 0 /\ exists ds, t = 45 :: ds /\ numeral (- n) ds).

(** upper-case hexadecimal digit *)
Definition hexchar (d : Z) : Z := if d <? 10 then 48 + d else 55 + d.
Definition hex2 (b : Z) : list Z := [hexchar (b / 16); hexchar (b mod 16)].

(** the part of an array before its first NUL *)
Fixpoint until_nul (s : list Z) : list Z :=
  match s with [] => [] | c :: s' => if c =? 0 then [] else c :: until_nul s' end.

(** things that can be printed *)
Inductive item : Type :=
| Text (s : list Z) | CText (s : list Z) | Char (c : Z) | Number (n : Z) | HexBytes (bs : list Z).

(** [clipped room i t]: item [i] contributes text [t] when [room] characters are free *)
Inductive clipped (room : Z) : item -> list Z -> Prop :=
| cl_text s : clipped room (Text s) (firstn (Z.to_nat room) s)
| cl_ctext s : clipped room (CText s) (firstn (Z.to_nat room) (until_nul s))
| cl_char_fits c : 1 <= room -> clipped room (Char c) [c]
| cl_char_full c : room < 1 -> clipped room (Char c) []
| cl_num_fits n t : dec_text n t -> zlen t <= room -> clipped room (Number n) t
| cl_num_full n t : dec_text n t -> room < zlen t -> clipped room (Number n) []
| cl_hex bs : clipped room (HexBytes bs) (concat (map hex2 (firstn (Z.to_nat (room / 2)) bs))).

(** text of a sequence of items *)
Inductive clipped_all (room : Z) : list item -> list Z -> Prop :=
| ca_nil : clipped_all room [] []
| ca_cons i is t ts : clipped room i t -> clipped_all (room - zlen t) is ts ->
    clipped_all room (i :: is) (t ++ ts).

(** [out] is [t] set into a field of [w] characters filled with [fl] on the left; a longer text is cut *)
Definition in_field (w fl : Z) (t out : list Z) : Prop :=
  zlen out = w /\
  (zlen t <= w -> exists pad, out = pad ++ t /\ Forall (eq fl) pad) /\
  (w < zlen t -> exists rest, t = out ++ rest).
