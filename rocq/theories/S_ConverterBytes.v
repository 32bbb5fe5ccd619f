(** What the font converter gives to iconv and what it does with the answers. *)
From Coq Require Import String.
From Verif Require Import Base S_Font M_Font M_Packing M_Options M_FontText M_Converter S_Converter.
Open Scope Z_scope.
Open Scope list_scope.

(** what is kept of an input for the next call: all of it if iconv wants more, as long as there is room;
    after a success everything but the last byte *)
Definition keeps (answer : iconvResult) (input : list Z) : list Z :=
  match answer with
  | Incomplete => if (length input <? 3)%nat then input else []
  | IconvError => []
  | Converted _ => removelast input
  end.
(** after the calls [l] the descriptor [d], opened for conversions between these encodings, was used [n]
    times and [k] is kept *)
Inductive conversions (w : world) (to from : list Z) (d : nat) : log -> nat -> list Z -> Prop :=
  | Opened l : conversions w to from d (l ++ [IconvOpen to from (Some d)]) 0 []
  | Used l n k input : conversions w to from d l n k ->
      conversions w to from d (l ++ [Iconv d input]) (S n) (keeps (wIconv w l to from input) input)
  | Other l n k e : conversions w to from d l n k -> (forall input, e <> Iconv d input) -> conversions w to from d (l ++ [e]) n k.
(** the character iconv answers with, little-endian; 0 if it does not answer *)
Definition ucs4 (answer : iconvResult) : Z :=
  match answer with
  | Converted out => nth 0 out 0 + 256 * nth 1 out 0 + 65536 * nth 2 out 0 + 16777216 * nth 3 out 0
  | _ => 0
  end.
Definition high (c : Z) : bool := 126 <? c.
Definition converts (w : world) (j : job) (before : log) (e : event) : Prop :=
  match e with
  | Iconv d input => exists to n k c, conversions w to (jobEncoding j) d before n k /\ input = k ++ [c] /\
      (to = txt "UCS-4LE" /\ nth_error (font_codes 32 (jobLast j)) n = Some c \/
       to = txt "UTF-8" /\ nth_error (filter high (font_codes 32 (jobLast j))) n = Some c)
  | FtLoadChar _ u _ => exists l d input n k, before = l ++ [Iconv d input] /\
      conversions w (txt "UCS-4LE") (jobEncoding j) d l n k /\ u = ucs4 (wIconv w l (txt "UCS-4LE") (jobEncoding j) input)
  | _ => True
  end.
