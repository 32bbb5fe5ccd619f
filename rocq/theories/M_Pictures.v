(** The reference pictures of the tests (tests/data), transcribed by script. *)
From Coq Require Import String.
From Verif Require Import Base M_FontText.

(** a file with the given lines *)
Definition fileOf (ls : list string) : list Z := flat_map (fun l => txt l ++ [10]) ls.

(** The lines of the large files have 280 pixel characters, a blank after each.  Here four of them are
    one hexadecimal digit. *)
Definition hexValue (c : Z) : Z := if c <=? 57 then c - 48 else c - 55.
Definition hexLine (s : string) : list Z :=
  flat_map (fun c => flat_map (fun k => [48 + Z.land (Z.shiftr (hexValue c) k) 1; 32]) [3; 2; 1; 0]) (txt s).
Definition fileOfHex (rows : list string) : list Z :=
  txt "P1" ++ [10] ++ txt "280 480" ++ [10] ++ flat_map (fun r => hexLine r ++ [10]) rows.

Local Open Scope string_scope.

(** tests/data/MonochromeFrameBufferTestLine1.pbm:1-62 *)
Definition pictureLine1 : list string := [
"P1";
"48 60";
"1 0 0 0 0 0 0 0 0 0 0 0 0 0 0 0 0 0 0 0 0 0 0 0 0 0 0 0 0 0 0 0 0 0 0 0 0 0 0 0 0 0 0 0 0 0 0 1 ";
"0 1 0 0 0 0 0 0 0 0 0 0 0 0 0 0 0 0 0 0 0 0 0 0 0 0 0 0 0 0 0 0 0 0 0 0 0 0 0 0 0 0 0 0 0 0 1 0 ";
"0 0 1 0 0 0 0 0 0 0 0 0 0 0 0 0 0 0 0 0 0 0 0 0 0 0 0 0 0 0 0 0 0 0 0 0 0 0 0 0 0 0 0 0 0 1 0 0 ";
"0 0 1 0 0 0 0 0 0 0 0 0 0 0 0 0 0 0 0 0 0 0 0 0 0 0 0 0 0 0 0 0 0 0 0 0 0 0 0 0 0 0 0 0 0 1 0 0 ";
"0 0 0 1 0 0 0 0 0 0 0 0 0 0 0 0 0 0 0 0 0 0 0 0 0 0 0 0 0 0 0 0 0 0 0 0 0 0 0 0 0 0 0 0 1 0 0 0 ";
"0 0 0 0 1 0 0 0 0 0 0 0 0 0 0 0 0 0 0 0 0 0 0 0 0 0 0 0 0 0 0 0 0 0 0 0 0 0 0 0 0 0 0 1 0 0 0 0 ";
"0 0 0 0 0 1 0 0 0 0 0 0 0 0 0 0 0 0 0 0 0 0 0 0 0 0 0 0 0 0 0 0 0 0 0 0 0 0 0 0 0 0 1 0 0 0 0 0 ";
"0 0 0 0 0 0 1 0 0 0 0 0 0 0 0 0 0 0 0 0 0 0 0 0 0 0 0 0 0 0 0 0 0 0 0 0 0 0 0 0 0 1 0 0 0 0 0 0 ";
"0 0 0 0 0 0 1 0 0 0 0 0 0 0 0 0 0 0 0 0 0 0 0 0 0 0 0 0 0 0 0 0 0 0 0 0 0 0 0 0 0 1 0 0 0 0 0 0 ";
"0 0 0 0 0 0 0 1 0 0 0 0 0 0 0 0 0 0 0 0 0 0 0 0 0 0 0 0 0 0 0 0 0 0 0 0 0 0 0 0 1 0 0 0 0 0 0 0 ";
"0 0 0 0 0 0 0 0 1 0 0 0 0 0 0 0 0 0 0 0 0 0 0 0 0 0 0 0 0 0 0 0 0 0 0 0 0 0 0 1 0 0 0 0 0 0 0 0 ";
"0 0 0 0 0 0 0 0 0 1 0 0 0 0 0 0 0 0 0 0 0 0 0 0 0 0 0 0 0 0 0 0 0 0 0 0 0 0 1 0 0 0 0 0 0 0 0 0 ";
"0 0 0 0 0 0 0 0 0 0 1 0 0 0 0 0 0 0 0 0 0 0 0 0 0 0 0 0 0 0 0 0 0 0 0 0 0 1 0 0 0 0 0 0 0 0 0 0 ";
"0 0 0 0 0 0 0 0 0 0 1 0 0 0 0 0 0 0 0 0 0 0 0 0 0 0 0 0 0 0 0 0 0 0 0 0 0 1 0 0 0 0 0 0 0 0 0 0 ";
"0 0 0 0 0 0 0 0 0 0 0 1 0 0 0 0 0 0 0 0 0 0 0 0 0 0 0 0 0 0 0 0 0 0 0 0 1 0 0 0 0 0 0 0 0 0 0 0 ";
"0 0 0 0 0 0 0 0 0 0 0 0 1 0 0 0 0 0 0 0 0 0 0 0 0 0 0 0 0 0 0 0 0 0 0 1 0 0 0 0 0 0 0 0 0 0 0 0 ";
"0 0 0 0 0 0 0 0 0 0 0 0 0 1 0 0 0 0 0 0 0 0 0 0 0 0 0 0 0 0 0 0 0 0 1 0 0 0 0 0 0 0 0 0 0 0 0 0 ";
"0 0 0 0 0 0 0 0 0 0 0 0 0 0 1 0 0 0 0 0 0 0 0 0 0 0 0 0 0 0 0 0 0 1 0 0 0 0 0 0 0 0 0 0 0 0 0 0 ";
"0 0 0 0 0 0 0 0 0 0 0 0 0 0 1 0 0 0 0 0 0 0 0 0 0 0 0 0 0 0 0 0 0 1 0 0 0 0 0 0 0 0 0 0 0 0 0 0 ";
"0 0 0 0 0 0 0 0 0 0 0 0 0 0 0 1 0 0 0 0 0 0 0 0 0 0 0 0 0 0 0 0 1 0 0 0 0 0 0 0 0 0 0 0 0 0 0 0 ";
"0 0 0 0 0 0 0 0 0 0 0 0 0 0 0 0 1 0 0 0 0 0 0 0 0 0 0 0 0 0 0 1 0 0 0 0 0 0 0 0 0 0 0 0 0 0 0 0 ";
"0 0 0 0 0 0 0 0 0 0 0 0 0 0 0 0 0 1 0 0 0 0 0 0 0 0 0 0 0 0 1 0 0 0 0 0 0 0 0 0 0 0 0 0 0 0 0 0 ";
"0 0 0 0 0 0 0 0 0 0 0 0 0 0 0 0 0 0 1 0 0 0 0 0 0 0 0 0 0 1 0 0 0 0 0 0 0 0 0 0 0 0 0 0 0 0 0 0 ";
"0 0 0 0 0 0 0 0 0 0 0 0 0 0 0 0 0 0 1 0 0 0 0 0 0 0 0 0 0 1 0 0 0 0 0 0 0 0 0 0 0 0 0 0 0 0 0 0 ";
"0 0 0 0 0 0 0 0 0 0 0 0 0 0 0 0 0 0 0 1 0 0 0 0 0 0 0 0 1 0 0 0 0 0 0 0 0 0 0 0 0 0 0 0 0 0 0 0 ";
"0 0 0 0 0 0 0 0 0 0 0 0 0 0 0 0 0 0 0 0 1 0 0 0 0 0 0 1 0 0 0 0 0 0 0 0 0 0 0 0 0 0 0 0 0 0 0 0 ";
"0 0 0 0 0 0 0 0 0 0 0 0 0 0 0 0 0 0 0 0 0 1 0 0 0 0 1 0 0 0 0 0 0 0 0 0 0 0 0 0 0 0 0 0 0 0 0 0 ";
"0 0 0 0 0 0 0 0 0 0 0 0 0 0 0 0 0 0 0 0 0 0 1 0 0 1 0 0 0 0 0 0 0 0 0 0 0 0 0 0 0 0 0 0 0 0 0 0 ";
"0 0 0 0 0 0 0 0 0 0 0 0 0 0 0 0 0 0 0 0 0 0 1 0 0 1 0 0 0 0 0 0 0 0 0 0 0 0 0 0 0 0 0 0 0 0 0 0 ";
"0 0 0 0 0 0 0 0 0 0 0 0 0 0 0 0 0 0 0 0 0 0 0 1 1 0 0 0 0 0 0 0 0 0 0 0 0 0 0 0 0 0 0 0 0 0 0 0 ";
"0 0 0 0 0 0 0 0 0 0 0 0 0 0 0 0 0 0 0 0 0 0 0 1 1 0 0 0 0 0 0 0 0 0 0 0 0 0 0 0 0 0 0 0 0 0 0 0 ";
"0 0 0 0 0 0 0 0 0 0 0 0 0 0 0 0 0 0 0 0 0 0 1 0 0 1 0 0 0 0 0 0 0 0 0 0 0 0 0 0 0 0 0 0 0 0 0 0 ";
"0 0 0 0 0 0 0 0 0 0 0 0 0 0 0 0 0 0 0 0 0 0 1 0 0 1 0 0 0 0 0 0 0 0 0 0 0 0 0 0 0 0 0 0 0 0 0 0 ";
"0 0 0 0 0 0 0 0 0 0 0 0 0 0 0 0 0 0 0 0 0 1 0 0 0 0 1 0 0 0 0 0 0 0 0 0 0 0 0 0 0 0 0 0 0 0 0 0 ";
"0 0 0 0 0 0 0 0 0 0 0 0 0 0 0 0 0 0 0 0 1 0 0 0 0 0 0 1 0 0 0 0 0 0 0 0 0 0 0 0 0 0 0 0 0 0 0 0 ";
"0 0 0 0 0 0 0 0 0 0 0 0 0 0 0 0 0 0 0 1 0 0 0 0 0 0 0 0 1 0 0 0 0 0 0 0 0 0 0 0 0 0 0 0 0 0 0 0 ";
"0 0 0 0 0 0 0 0 0 0 0 0 0 0 0 0 0 0 1 0 0 0 0 0 0 0 0 0 0 1 0 0 0 0 0 0 0 0 0 0 0 0 0 0 0 0 0 0 ";
"0 0 0 0 0 0 0 0 0 0 0 0 0 0 0 0 0 0 1 0 0 0 0 0 0 0 0 0 0 1 0 0 0 0 0 0 0 0 0 0 0 0 0 0 0 0 0 0 ";
"0 0 0 0 0 0 0 0 0 0 0 0 0 0 0 0 0 1 0 0 0 0 0 0 0 0 0 0 0 0 1 0 0 0 0 0 0 0 0 0 0 0 0 0 0 0 0 0 ";
"0 0 0 0 0 0 0 0 0 0 0 0 0 0 0 0 1 0 0 0 0 0 0 0 0 0 0 0 0 0 0 1 0 0 0 0 0 0 0 0 0 0 0 0 0 0 0 0 ";
"0 0 0 0 0 0 0 0 0 0 0 0 0 0 0 1 0 0 0 0 0 0 0 0 0 0 0 0 0 0 0 0 1 0 0 0 0 0 0 0 0 0 0 0 0 0 0 0 ";
"0 0 0 0 0 0 0 0 0 0 0 0 0 0 1 0 0 0 0 0 0 0 0 0 0 0 0 0 0 0 0 0 0 1 0 0 0 0 0 0 0 0 0 0 0 0 0 0 ";
"0 0 0 0 0 0 0 0 0 0 0 0 0 0 1 0 0 0 0 0 0 0 0 0 0 0 0 0 0 0 0 0 0 1 0 0 0 0 0 0 0 0 0 0 0 0 0 0 ";
"0 0 0 0 0 0 0 0 0 0 0 0 0 1 0 0 0 0 0 0 0 0 0 0 0 0 0 0 0 0 0 0 0 0 1 0 0 0 0 0 0 0 0 0 0 0 0 0 ";
"0 0 0 0 0 0 0 0 0 0 0 0 1 0 0 0 0 0 0 0 0 0 0 0 0 0 0 0 0 0 0 0 0 0 0 1 0 0 0 0 0 0 0 0 0 0 0 0 ";
"0 0 0 0 0 0 0 0 0 0 0 1 0 0 0 0 0 0 0 0 0 0 0 0 0 0 0 0 0 0 0 0 0 0 0 0 1 0 0 0 0 0 0 0 0 0 0 0 ";
"0 0 0 0 0 0 0 0 0 0 1 0 0 0 0 0 0 0 0 0 0 0 0 0 0 0 0 0 0 0 0 0 0 0 0 0 0 1 0 0 0 0 0 0 0 0 0 0 ";
"0 0 0 0 0 0 0 0 0 0 1 0 0 0 0 0 0 0 0 0 0 0 0 0 0 0 0 0 0 0 0 0 0 0 0 0 0 1 0 0 0 0 0 0 0 0 0 0 ";
"0 0 0 0 0 0 0 0 0 1 0 0 0 0 0 0 0 0 0 0 0 0 0 0 0 0 0 0 0 0 0 0 0 0 0 0 0 0 1 0 0 0 0 0 0 0 0 0 ";
"0 0 0 0 0 0 0 0 1 0 0 0 0 0 0 0 0 0 0 0 0 0 0 0 0 0 0 0 0 0 0 0 0 0 0 0 0 0 0 1 0 0 0 0 0 0 0 0 ";
"0 0 0 0 0 0 0 1 0 0 0 0 0 0 0 0 0 0 0 0 0 0 0 0 0 0 0 0 0 0 0 0 0 0 0 0 0 0 0 0 1 0 0 0 0 0 0 0 ";
"0 0 0 0 0 0 1 0 0 0 0 0 0 0 0 0 0 0 0 0 0 0 0 0 0 0 0 0 0 0 0 0 0 0 0 0 0 0 0 0 0 1 0 0 0 0 0 0 ";
"0 0 0 0 0 0 1 0 0 0 0 0 0 0 0 0 0 0 0 0 0 0 0 0 0 0 0 0 0 0 0 0 0 0 0 0 0 0 0 0 0 1 0 0 0 0 0 0 ";
"0 0 0 0 0 1 0 0 0 0 0 0 0 0 0 0 0 0 0 0 0 0 0 0 0 0 0 0 0 0 0 0 0 0 0 0 0 0 0 0 0 0 1 0 0 0 0 0 ";
"0 0 0 0 1 0 0 0 0 0 0 0 0 0 0 0 0 0 0 0 0 0 0 0 0 0 0 0 0 0 0 0 0 0 0 0 0 0 0 0 0 0 0 1 0 0 0 0 ";
"0 0 0 1 0 0 0 0 0 0 0 0 0 0 0 0 0 0 0 0 0 0 0 0 0 0 0 0 0 0 0 0 0 0 0 0 0 0 0 0 0 0 0 0 1 0 0 0 ";
"0 0 1 0 0 0 0 0 0 0 0 0 0 0 0 0 0 0 0 0 0 0 0 0 0 0 0 0 0 0 0 0 0 0 0 0 0 0 0 0 0 0 0 0 0 1 0 0 ";
"0 0 1 0 0 0 0 0 0 0 0 0 0 0 0 0 0 0 0 0 0 0 0 0 0 0 0 0 0 0 0 0 0 0 0 0 0 0 0 0 0 0 0 0 0 1 0 0 ";
"0 1 0 0 0 0 0 0 0 0 0 0 0 0 0 0 0 0 0 0 0 0 0 0 0 0 0 0 0 0 0 0 0 0 0 0 0 0 0 0 0 0 0 0 0 0 1 0 ";
"1 0 0 0 0 0 0 0 0 0 0 0 0 0 0 0 0 0 0 0 0 0 0 0 0 0 0 0 0 0 0 0 0 0 0 0 0 0 0 0 0 0 0 0 0 0 0 1 "].

(** tests/data/MonochromeFrameBufferTestLine2.pbm:1-62 *)
Definition pictureLine2 : list string := [
"P1";
"48 60";
"0 0 0 0 0 0 0 0 0 0 0 0 0 0 0 0 0 0 0 0 0 0 0 0 0 0 0 0 0 0 0 0 0 0 0 0 0 0 0 0 0 0 0 0 0 0 0 0 ";
"0 0 0 0 0 0 0 0 0 0 0 0 0 0 0 0 0 0 0 0 0 0 0 0 0 0 0 0 0 0 0 0 0 0 0 0 0 0 0 0 0 0 0 0 0 0 0 0 ";
"0 0 0 0 0 0 0 0 0 0 0 0 0 0 0 0 0 0 0 0 0 0 0 0 0 0 0 0 0 0 0 0 0 0 0 0 0 0 0 0 0 0 0 0 0 0 0 0 ";
"0 0 0 0 0 0 0 0 0 0 0 0 0 0 0 0 0 0 0 0 0 0 0 0 0 0 0 0 0 0 0 0 0 0 0 0 0 0 0 0 0 0 0 0 0 0 0 0 ";
"0 0 0 0 0 0 0 0 0 0 0 0 0 0 0 0 0 0 0 0 0 0 0 0 0 0 0 0 0 0 0 0 0 0 0 0 0 0 0 0 0 0 0 0 0 0 0 0 ";
"0 0 0 0 0 0 0 0 0 0 0 0 0 0 0 0 0 0 0 0 0 0 0 0 0 0 0 0 0 0 0 0 0 0 0 0 0 0 0 0 0 0 0 0 0 0 0 0 ";
"0 0 0 0 0 0 0 0 0 0 0 0 0 0 0 0 0 0 0 0 0 0 0 0 0 0 0 0 0 0 0 0 0 0 0 0 0 0 0 0 0 0 0 0 0 0 0 0 ";
"0 0 0 0 0 0 0 0 0 0 0 0 0 0 0 0 0 0 0 0 0 0 0 0 0 0 0 0 0 0 0 0 0 0 0 0 0 0 0 0 0 0 0 0 0 0 0 0 ";
"0 0 0 0 0 0 0 0 0 0 0 0 0 0 0 0 0 0 0 0 0 0 0 0 0 0 0 0 0 0 0 0 0 0 0 0 0 0 0 0 0 0 0 0 0 0 0 0 ";
"0 0 0 0 0 0 0 0 0 0 0 0 0 0 0 0 0 0 0 0 0 0 0 0 0 0 0 0 0 0 0 0 0 0 0 0 0 0 0 0 0 0 0 0 0 0 0 0 ";
"0 0 0 0 0 0 0 0 0 0 0 0 0 0 0 0 0 0 0 0 0 0 0 0 0 0 0 0 0 0 0 0 0 0 0 0 0 0 0 0 0 0 0 0 0 0 0 0 ";
"0 0 0 0 0 0 0 0 0 0 0 0 0 0 0 0 0 0 0 0 0 0 0 0 0 0 0 0 0 0 0 0 0 0 0 0 0 0 0 0 0 0 0 0 0 0 0 0 ";
"0 0 0 0 0 0 0 0 0 0 0 0 0 0 0 0 0 0 0 0 0 0 0 0 0 0 0 0 0 0 0 0 0 0 0 0 0 0 0 0 0 0 0 0 0 0 0 0 ";
"0 0 0 0 0 0 0 0 0 0 0 0 0 0 0 0 0 0 0 0 0 0 0 0 0 0 0 0 0 0 0 0 0 0 0 0 0 0 0 0 0 0 0 0 0 0 0 0 ";
"0 0 0 0 0 0 0 0 0 0 0 0 0 0 0 0 0 0 0 0 0 0 0 0 0 0 0 0 0 0 0 0 0 0 0 0 0 0 0 0 0 0 0 0 0 0 0 0 ";
"0 0 0 0 0 0 0 0 0 0 0 0 0 0 0 0 0 0 0 0 0 0 0 0 0 0 0 0 0 0 0 0 0 0 0 0 0 0 0 0 0 0 0 0 0 0 0 0 ";
"0 0 0 0 0 0 0 0 0 0 0 0 0 0 0 0 0 0 0 0 0 0 0 0 0 0 0 0 0 0 0 0 0 0 0 0 0 0 0 0 0 0 0 0 0 0 0 0 ";
"0 0 0 0 0 0 0 0 0 0 0 0 0 0 0 0 0 0 0 0 0 0 0 0 0 0 0 0 0 0 0 0 0 0 0 0 0 0 0 0 0 0 0 0 0 0 0 0 ";
"0 0 0 0 0 0 0 0 0 0 0 0 0 0 0 0 0 0 0 0 0 0 0 0 0 0 0 0 0 0 0 0 0 0 0 0 0 0 0 0 0 0 0 0 0 0 0 0 ";
"0 0 0 0 0 0 0 0 0 0 0 0 0 0 0 0 0 0 0 0 0 0 0 0 0 0 0 0 0 0 0 0 0 0 0 0 0 0 0 0 0 0 0 0 0 0 0 0 ";
"0 1 1 0 0 0 0 0 0 0 0 0 0 0 0 0 0 0 0 0 0 0 0 0 0 0 0 0 0 0 0 0 0 0 0 0 0 0 0 0 0 0 0 0 0 1 1 0 ";
"0 0 0 1 1 0 0 0 0 0 0 0 0 0 0 0 0 0 0 0 0 0 0 0 0 0 0 0 0 0 0 0 0 0 0 0 0 0 0 0 0 0 0 1 1 0 0 0 ";
"0 0 0 0 0 1 1 0 0 0 0 0 0 0 0 0 0 0 0 0 0 0 0 0 0 0 0 0 0 0 0 0 0 0 0 0 0 0 0 0 0 1 1 0 0 0 0 0 ";
"0 0 0 0 0 0 0 1 1 0 0 0 0 0 0 0 0 0 0 0 0 0 0 0 0 0 0 0 0 0 0 0 0 0 0 0 0 0 0 1 1 0 0 0 0 0 0 0 ";
"0 0 0 0 0 0 0 0 0 1 1 1 0 0 0 0 0 0 0 0 0 0 0 0 0 0 0 0 0 0 0 0 0 0 0 0 1 1 1 0 0 0 0 0 0 0 0 0 ";
"0 0 0 0 0 0 0 0 0 0 0 0 1 1 0 0 0 0 0 0 0 0 0 0 0 0 0 0 0 0 0 0 0 0 1 1 0 0 0 0 0 0 0 0 0 0 0 0 ";
"0 0 0 0 0 0 0 0 0 0 0 0 0 0 1 1 0 0 0 0 0 0 0 0 0 0 0 0 0 0 0 0 1 1 0 0 0 0 0 0 0 0 0 0 0 0 0 0 ";
"0 0 0 0 0 0 0 0 0 0 0 0 0 0 0 0 1 1 0 0 0 0 0 0 0 0 0 0 0 0 1 1 0 0 0 0 0 0 0 0 0 0 0 0 0 0 0 0 ";
"0 0 0 0 0 0 0 0 0 0 0 0 0 0 0 0 0 0 1 1 1 0 0 0 0 0 0 1 1 1 0 0 0 0 0 0 0 0 0 0 0 0 0 0 0 0 0 0 ";
"0 0 0 0 0 0 0 0 0 0 0 0 0 0 0 0 0 0 0 0 0 1 1 0 0 1 1 0 0 0 0 0 0 0 0 0 0 0 0 0 0 0 0 0 0 0 0 0 ";
"0 0 0 0 0 0 0 0 0 0 0 0 0 0 0 0 0 0 0 0 0 0 0 1 1 0 0 0 0 0 0 0 0 0 0 0 0 0 0 0 0 0 0 0 0 0 0 0 ";
"0 0 0 0 0 0 0 0 0 0 0 0 0 0 0 0 0 0 0 0 0 1 1 0 0 1 1 0 0 0 0 0 0 0 0 0 0 0 0 0 0 0 0 0 0 0 0 0 ";
"0 0 0 0 0 0 0 0 0 0 0 0 0 0 0 0 0 0 1 1 1 0 0 0 0 0 0 1 1 1 0 0 0 0 0 0 0 0 0 0 0 0 0 0 0 0 0 0 ";
"0 0 0 0 0 0 0 0 0 0 0 0 0 0 0 0 1 1 0 0 0 0 0 0 0 0 0 0 0 0 1 1 0 0 0 0 0 0 0 0 0 0 0 0 0 0 0 0 ";
"0 0 0 0 0 0 0 0 0 0 0 0 0 0 1 1 0 0 0 0 0 0 0 0 0 0 0 0 0 0 0 0 1 1 0 0 0 0 0 0 0 0 0 0 0 0 0 0 ";
"0 0 0 0 0 0 0 0 0 0 0 0 1 1 0 0 0 0 0 0 0 0 0 0 0 0 0 0 0 0 0 0 0 0 1 1 0 0 0 0 0 0 0 0 0 0 0 0 ";
"0 0 0 0 0 0 0 0 0 1 1 1 0 0 0 0 0 0 0 0 0 0 0 0 0 0 0 0 0 0 0 0 0 0 0 0 1 1 1 0 0 0 0 0 0 0 0 0 ";
"0 0 0 0 0 0 0 1 1 0 0 0 0 0 0 0 0 0 0 0 0 0 0 0 0 0 0 0 0 0 0 0 0 0 0 0 0 0 0 1 1 0 0 0 0 0 0 0 ";
"0 0 0 0 0 1 1 0 0 0 0 0 0 0 0 0 0 0 0 0 0 0 0 0 0 0 0 0 0 0 0 0 0 0 0 0 0 0 0 0 0 1 1 0 0 0 0 0 ";
"0 0 0 1 1 0 0 0 0 0 0 0 0 0 0 0 0 0 0 0 0 0 0 0 0 0 0 0 0 0 0 0 0 0 0 0 0 0 0 0 0 0 0 1 1 0 0 0 ";
"0 1 1 0 0 0 0 0 0 0 0 0 0 0 0 0 0 0 0 0 0 0 0 0 0 0 0 0 0 0 0 0 0 0 0 0 0 0 0 0 0 0 0 0 0 1 1 0 ";
"0 0 0 0 0 0 0 0 0 0 0 0 0 0 0 0 0 0 0 0 0 0 0 0 0 0 0 0 0 0 0 0 0 0 0 0 0 0 0 0 0 0 0 0 0 0 0 0 ";
"0 0 0 0 0 0 0 0 0 0 0 0 0 0 0 0 0 0 0 0 0 0 0 0 0 0 0 0 0 0 0 0 0 0 0 0 0 0 0 0 0 0 0 0 0 0 0 0 ";
"0 0 0 0 0 0 0 0 0 0 0 0 0 0 0 0 0 0 0 0 0 0 0 0 0 0 0 0 0 0 0 0 0 0 0 0 0 0 0 0 0 0 0 0 0 0 0 0 ";
"0 0 0 0 0 0 0 0 0 0 0 0 0 0 0 0 0 0 0 0 0 0 0 0 0 0 0 0 0 0 0 0 0 0 0 0 0 0 0 0 0 0 0 0 0 0 0 0 ";
"0 0 0 0 0 0 0 0 0 0 0 0 0 0 0 0 0 0 0 0 0 0 0 0 0 0 0 0 0 0 0 0 0 0 0 0 0 0 0 0 0 0 0 0 0 0 0 0 ";
"0 0 0 0 0 0 0 0 0 0 0 0 0 0 0 0 0 0 0 0 0 0 0 0 0 0 0 0 0 0 0 0 0 0 0 0 0 0 0 0 0 0 0 0 0 0 0 0 ";
"0 0 0 0 0 0 0 0 0 0 0 0 0 0 0 0 0 0 0 0 0 0 0 0 0 0 0 0 0 0 0 0 0 0 0 0 0 0 0 0 0 0 0 0 0 0 0 0 ";
"0 0 0 0 0 0 0 0 0 0 0 0 0 0 0 0 0 0 0 0 0 0 0 0 0 0 0 0 0 0 0 0 0 0 0 0 0 0 0 0 0 0 0 0 0 0 0 0 ";
"0 0 0 0 0 0 0 0 0 0 0 0 0 0 0 0 0 0 0 0 0 0 0 0 0 0 0 0 0 0 0 0 0 0 0 0 0 0 0 0 0 0 0 0 0 0 0 0 ";
"0 0 0 0 0 0 0 0 0 0 0 0 0 0 0 0 0 0 0 0 0 0 0 0 0 0 0 0 0 0 0 0 0 0 0 0 0 0 0 0 0 0 0 0 0 0 0 0 ";
"0 0 0 0 0 0 0 0 0 0 0 0 0 0 0 0 0 0 0 0 0 0 0 0 0 0 0 0 0 0 0 0 0 0 0 0 0 0 0 0 0 0 0 0 0 0 0 0 ";
"0 0 0 0 0 0 0 0 0 0 0 0 0 0 0 0 0 0 0 0 0 0 0 0 0 0 0 0 0 0 0 0 0 0 0 0 0 0 0 0 0 0 0 0 0 0 0 0 ";
"0 0 0 0 0 0 0 0 0 0 0 0 0 0 0 0 0 0 0 0 0 0 0 0 0 0 0 0 0 0 0 0 0 0 0 0 0 0 0 0 0 0 0 0 0 0 0 0 ";
"0 0 0 0 0 0 0 0 0 0 0 0 0 0 0 0 0 0 0 0 0 0 0 0 0 0 0 0 0 0 0 0 0 0 0 0 0 0 0 0 0 0 0 0 0 0 0 0 ";
"0 0 0 0 0 0 0 0 0 0 0 0 0 0 0 0 0 0 0 0 0 0 0 0 0 0 0 0 0 0 0 0 0 0 0 0 0 0 0 0 0 0 0 0 0 0 0 0 ";
"0 0 0 0 0 0 0 0 0 0 0 0 0 0 0 0 0 0 0 0 0 0 0 0 0 0 0 0 0 0 0 0 0 0 0 0 0 0 0 0 0 0 0 0 0 0 0 0 ";
"0 0 0 0 0 0 0 0 0 0 0 0 0 0 0 0 0 0 0 0 0 0 0 0 0 0 0 0 0 0 0 0 0 0 0 0 0 0 0 0 0 0 0 0 0 0 0 0 ";
"0 0 0 0 0 0 0 0 0 0 0 0 0 0 0 0 0 0 0 0 0 0 0 0 0 0 0 0 0 0 0 0 0 0 0 0 0 0 0 0 0 0 0 0 0 0 0 0 ";
"0 0 0 0 0 0 0 0 0 0 0 0 0 0 0 0 0 0 0 0 0 0 0 0 0 0 0 0 0 0 0 0 0 0 0 0 0 0 0 0 0 0 0 0 0 0 0 0 "].

(** tests/data/MonochromeFrameBufferTestLine3.pbm:1-62 *)
Definition pictureLine3 : list string := [
"P1";
"48 60";
"0 0 0 0 0 0 0 0 0 0 0 0 0 0 0 0 0 0 0 0 0 0 0 0 0 0 0 0 0 0 0 0 0 0 0 0 0 0 0 0 0 0 0 0 0 0 0 0 ";
"0 0 1 1 1 1 1 1 1 1 1 1 1 1 1 1 1 1 1 1 1 1 1 1 1 1 1 1 1 1 1 1 1 1 1 1 1 1 1 1 1 1 1 1 1 1 0 0 ";
"0 1 0 0 0 0 0 0 0 0 0 0 0 0 0 0 0 0 0 0 0 0 0 0 0 0 0 0 0 0 0 0 0 0 0 0 0 0 0 0 0 0 0 0 0 0 1 0 ";
"0 1 0 0 0 0 0 0 0 0 0 0 0 0 0 0 0 0 0 0 0 0 1 1 0 0 0 0 0 0 0 0 0 0 0 0 0 0 0 0 0 0 0 0 0 0 1 0 ";
"0 1 0 0 0 0 0 0 0 0 0 0 0 0 0 0 0 0 0 0 0 1 0 0 1 0 0 0 0 0 0 0 0 0 0 0 0 0 0 0 0 0 0 0 0 0 1 0 ";
"0 1 0 0 0 0 0 0 0 0 0 0 0 0 0 0 0 0 0 0 1 0 0 0 0 1 0 0 0 0 0 0 0 0 0 0 0 0 0 0 0 0 0 0 0 0 1 0 ";
"0 1 0 0 0 0 0 0 0 0 0 0 0 0 0 0 0 0 0 1 0 0 0 0 0 0 1 0 0 0 0 0 0 0 0 0 0 0 0 0 0 0 0 0 0 0 1 0 ";
"0 1 0 0 0 0 0 0 0 0 0 0 0 0 0 0 0 0 1 0 0 0 0 0 0 0 0 1 0 0 0 0 0 0 0 0 0 0 0 0 0 0 0 0 0 0 1 0 ";
"0 1 0 0 0 0 0 0 0 0 0 0 0 0 0 0 0 1 0 0 0 0 0 0 0 0 0 0 1 0 0 0 0 0 0 0 0 0 0 0 0 0 0 0 0 0 1 0 ";
"0 1 0 0 0 0 0 0 0 0 0 0 0 0 0 0 1 0 0 0 0 0 0 0 0 0 0 0 0 1 0 0 0 0 0 0 0 0 0 0 0 0 0 0 0 0 1 0 ";
"0 1 0 0 0 0 0 0 0 0 0 0 0 0 0 1 0 0 0 0 0 0 0 0 0 0 0 0 0 0 1 0 0 0 0 0 0 0 0 0 0 0 0 0 0 0 1 0 ";
"0 1 0 0 0 0 0 0 0 0 0 0 0 0 1 0 0 0 0 0 0 0 0 0 0 0 0 0 0 0 0 1 0 0 0 0 0 0 0 0 0 0 0 0 0 0 1 0 ";
"0 1 0 0 0 0 0 0 0 0 0 0 0 1 0 0 0 0 0 0 0 0 0 0 0 0 0 0 0 0 0 0 1 0 0 0 0 0 0 0 0 0 0 0 0 0 1 0 ";
"0 1 0 0 0 0 0 0 0 0 0 0 1 0 0 0 0 0 0 0 0 0 0 0 0 0 0 0 0 0 0 0 0 1 0 0 0 0 0 0 0 0 0 0 0 0 1 0 ";
"0 1 0 0 0 0 0 0 0 0 0 1 0 0 0 0 0 0 0 0 0 0 0 0 0 0 0 0 0 0 0 0 0 0 1 0 0 0 0 0 0 0 0 0 0 0 1 0 ";
"0 1 0 0 0 0 0 0 0 0 1 0 0 0 0 0 0 0 0 0 0 0 0 0 0 0 0 0 0 0 0 0 0 0 0 1 0 0 0 0 0 0 0 0 0 0 1 0 ";
"0 1 0 0 0 0 0 0 0 1 0 0 0 0 0 0 0 0 0 0 0 0 0 0 0 0 0 0 0 0 0 0 0 0 0 0 1 0 0 0 0 0 0 0 0 0 1 0 ";
"0 1 0 0 0 0 0 0 1 0 0 0 0 0 0 0 0 0 0 0 0 0 0 0 0 0 0 0 0 0 0 0 0 0 0 0 0 1 0 0 0 0 0 0 0 0 1 0 ";
"0 1 0 0 0 0 0 1 0 0 0 0 0 0 0 0 0 0 0 0 0 0 0 0 0 0 0 0 0 0 0 0 0 0 0 0 0 0 1 0 0 0 0 0 0 0 1 0 ";
"0 1 0 0 0 0 1 0 0 0 0 0 0 0 0 0 0 0 0 0 0 0 0 0 0 0 0 0 0 0 0 0 0 0 0 0 0 0 0 1 0 0 0 0 0 0 1 0 ";
"0 1 0 0 0 1 0 0 0 0 0 0 0 0 0 0 0 0 0 0 0 0 0 0 0 0 0 0 0 0 0 0 0 0 0 0 0 0 0 0 1 0 0 0 0 0 1 0 ";
"0 1 0 0 1 0 0 0 0 0 0 0 0 0 0 0 0 0 0 0 0 0 0 0 0 0 0 0 0 0 0 0 0 0 0 0 0 0 0 0 0 1 0 0 0 0 1 0 ";
"0 1 0 1 0 0 0 0 0 0 0 0 0 0 0 0 0 0 0 0 0 0 0 0 0 0 0 0 0 0 0 0 0 0 0 0 0 0 0 0 0 0 1 0 0 0 1 0 ";
"0 1 0 1 0 0 0 0 0 0 0 0 0 0 0 0 0 0 0 0 0 0 0 0 0 0 0 0 0 0 0 0 0 0 0 0 0 0 0 0 0 0 1 0 0 0 1 0 ";
"0 1 0 0 1 0 0 0 0 0 0 0 0 0 0 0 0 0 0 0 0 0 0 0 0 0 0 0 0 0 0 0 0 0 0 0 0 0 0 0 0 1 0 0 0 0 1 0 ";
"0 1 0 0 0 1 0 0 0 0 0 0 0 0 0 0 0 0 0 0 0 0 0 0 0 0 0 0 0 0 0 0 0 0 0 0 0 0 0 0 1 0 0 0 0 0 1 0 ";
"0 1 0 0 0 0 1 0 0 0 0 0 0 0 0 0 0 0 0 0 0 0 0 0 0 0 0 0 0 0 0 0 0 0 0 0 0 0 0 1 0 0 0 0 0 0 1 0 ";
"0 1 0 0 0 0 0 1 0 0 0 0 0 0 0 0 0 0 0 0 0 0 0 0 0 0 0 0 0 0 0 0 0 0 0 0 0 0 1 0 0 0 0 0 0 0 1 0 ";
"0 1 0 0 0 0 0 0 1 0 0 0 0 0 0 0 0 0 0 0 0 0 0 0 0 0 0 0 0 0 0 0 0 0 0 0 0 1 0 0 0 0 0 0 0 0 1 0 ";
"0 1 0 0 0 0 0 0 0 1 0 0 0 0 0 0 0 0 0 0 0 0 0 0 0 0 0 0 0 0 0 0 0 0 0 0 1 0 0 0 0 0 0 0 0 0 1 0 ";
"0 1 0 0 0 0 0 0 0 0 1 0 0 0 0 0 0 0 0 0 0 0 0 0 0 0 0 0 0 0 0 0 0 0 0 1 0 0 0 0 0 0 0 0 0 0 1 0 ";
"0 1 0 0 0 0 0 0 0 0 0 1 0 0 0 0 0 0 0 0 0 0 0 0 0 0 0 0 0 0 0 0 0 0 1 0 0 0 0 0 0 0 0 0 0 0 1 0 ";
"0 1 0 0 0 0 0 0 0 0 0 0 1 0 0 0 0 0 0 0 0 0 0 0 0 0 0 0 0 0 0 0 0 1 0 0 0 0 0 0 0 0 0 0 0 0 1 0 ";
"0 1 0 0 0 0 0 0 0 0 0 0 0 1 0 0 0 0 0 0 0 0 0 0 0 0 0 0 0 0 0 0 1 0 0 0 0 0 0 0 0 0 0 0 0 0 1 0 ";
"0 1 0 0 0 0 0 0 0 0 0 0 0 0 1 0 0 0 0 0 0 0 0 0 0 0 0 0 0 0 0 1 0 0 0 0 0 0 0 0 0 0 0 0 0 0 1 0 ";
"0 1 0 0 0 0 0 0 0 0 0 0 0 0 0 1 0 0 0 0 0 0 0 0 0 0 0 0 0 0 1 0 0 0 0 0 0 0 0 0 0 0 0 0 0 0 1 0 ";
"0 1 0 0 0 0 0 0 0 0 0 0 0 0 0 0 1 0 0 0 0 0 0 0 0 0 0 0 0 1 0 0 0 0 0 0 0 0 0 0 0 0 0 0 0 0 1 0 ";
"0 1 0 0 0 0 0 0 0 0 0 0 0 0 0 0 0 1 0 0 0 0 0 0 0 0 0 0 1 0 0 0 0 0 0 0 0 0 0 0 0 0 0 0 0 0 1 0 ";
"0 1 0 0 0 0 0 0 0 0 0 0 0 0 0 0 0 0 1 0 0 0 0 0 0 0 0 1 0 0 0 0 0 0 0 0 0 0 0 0 0 0 0 0 0 0 1 0 ";
"0 1 0 0 0 0 0 0 0 0 0 0 0 0 0 0 0 0 0 1 0 0 0 0 0 0 1 0 0 0 0 0 0 0 0 0 0 0 0 0 0 0 0 0 0 0 1 0 ";
"0 1 0 0 0 0 0 0 0 0 0 0 0 0 0 0 0 0 0 0 1 0 0 0 0 1 0 0 0 0 0 0 0 0 0 0 0 0 0 0 0 0 0 0 0 0 1 0 ";
"0 1 0 0 0 0 0 0 0 0 0 0 0 0 0 0 0 0 0 0 0 1 0 0 1 0 0 0 0 0 0 0 0 0 0 0 0 0 0 0 0 0 0 0 0 0 1 0 ";
"0 1 0 0 0 0 0 0 0 0 0 0 0 0 0 0 0 0 0 0 0 0 1 1 0 0 0 0 0 0 0 0 0 0 0 0 0 0 0 0 0 0 0 0 0 0 1 0 ";
"0 1 0 0 0 0 0 0 0 0 0 0 0 0 0 0 0 0 0 0 0 0 0 0 0 0 0 0 0 0 0 0 0 0 0 0 0 0 0 0 0 0 0 0 0 0 1 0 ";
"0 1 0 0 0 0 0 0 0 0 0 0 0 0 0 0 0 0 0 0 0 0 0 0 0 0 0 0 0 0 0 0 0 0 0 0 0 0 0 0 0 0 0 0 0 0 1 0 ";
"0 1 0 0 0 0 0 0 0 0 0 0 0 0 0 0 0 0 0 0 0 0 0 0 0 0 0 0 0 0 0 0 0 0 0 0 0 0 0 0 0 0 0 0 0 0 1 0 ";
"0 0 1 1 1 1 1 1 1 1 1 1 1 1 1 1 1 1 1 1 1 1 1 1 1 1 1 1 1 1 1 1 1 1 1 1 1 1 1 1 1 1 1 1 1 1 0 0 ";
"0 0 0 0 0 0 0 0 0 0 0 0 0 0 0 0 0 0 0 0 0 0 0 0 0 0 0 0 0 0 0 0 0 0 0 0 0 0 0 0 0 0 0 0 0 0 0 0 ";
"0 0 0 0 0 0 0 0 0 0 0 0 0 0 0 0 0 0 0 0 0 0 0 0 0 0 0 0 0 0 0 0 0 0 0 0 0 0 0 0 0 0 0 0 0 0 0 0 ";
"0 0 0 0 0 0 0 0 0 0 0 0 0 0 0 0 0 0 0 0 0 0 0 0 0 0 0 0 0 0 0 0 0 0 0 0 0 0 0 0 0 0 0 0 0 0 0 0 ";
"0 0 0 0 0 0 0 0 0 0 0 0 0 0 0 0 0 0 0 0 0 0 0 0 0 0 0 0 0 0 0 0 0 0 0 0 0 0 0 0 0 0 0 0 0 0 0 0 ";
"0 0 0 0 0 0 0 0 0 0 0 0 0 0 0 0 0 0 0 0 0 0 0 0 0 0 0 0 0 0 0 0 0 0 0 0 0 0 0 0 0 0 0 0 0 0 0 0 ";
"0 0 0 0 0 0 0 0 0 0 0 0 0 0 0 0 0 0 0 0 0 0 0 0 0 0 0 0 0 0 0 0 0 0 0 0 0 0 0 0 0 0 0 0 0 0 0 0 ";
"0 0 0 0 0 0 0 0 0 0 0 0 0 0 0 0 0 0 0 0 0 0 0 0 0 0 0 0 0 0 0 0 0 0 0 0 0 0 0 0 0 0 0 0 0 0 0 0 ";
"0 0 0 0 0 0 0 0 0 0 0 0 0 0 0 0 0 0 0 0 0 0 0 0 0 0 0 0 0 0 0 0 0 0 0 0 0 0 0 0 0 0 0 0 0 0 0 0 ";
"0 0 0 0 0 0 0 0 0 0 0 0 0 0 0 0 0 0 0 0 0 0 0 0 0 0 0 0 0 0 0 0 0 0 0 0 0 0 0 0 0 0 0 0 0 0 0 0 ";
"0 0 0 0 0 0 0 0 0 0 0 0 0 0 0 0 0 0 0 0 0 0 0 0 0 0 0 0 0 0 0 0 0 0 0 0 0 0 0 0 0 0 0 0 0 0 0 0 ";
"0 0 0 0 0 0 0 0 0 0 0 0 0 0 0 0 0 0 0 0 0 0 0 0 0 0 0 0 0 0 0 0 0 0 0 0 0 0 0 0 0 0 0 0 0 0 0 0 ";
"0 0 0 0 0 0 0 0 0 0 0 0 0 0 0 0 0 0 0 0 0 0 0 0 0 0 0 0 0 0 0 0 0 0 0 0 0 0 0 0 0 0 0 0 0 0 0 0 ";
"0 0 0 0 0 0 0 0 0 0 0 0 0 0 0 0 0 0 0 0 0 0 0 0 0 0 0 0 0 0 0 0 0 0 0 0 0 0 0 0 0 0 0 0 0 0 0 0 "].

(** tests/data/MonochromeFrameBufferTest0.pbm:1-482 *)
Definition picture0 : list string := [
"FFFFFFFFFFFFFFFFFFFFFFFFFFFFFFFFFFFFFFFFFFFFFFFFFFFFFFFFFFFFFFFFFFFFFF";
"8000000000000000000000000000000000000000000000000000000000000000000001";
"8000000000000000000000000000000000000000000000000000000000000000000001";
"8000000000000000000000000000000000000000000000000000000000000000000001";
"8000000000000000000000000000000000000000000000000000000000000000000001";
"8000000000000000000000000000000000000000000000000000000000000000000001";
"8000000000000000000000000000000000000000000000000000000000000000000001";
"8000000000000000000000000000000000000000000000000000000000000000000001";
"8000000000000000000000000000000000000000000000000000000000000000000001";
"8000000000000000000000000000000000000000000000000000000000000000000001";
"803FFFFFFFFFFFFFFFFFFFFFFFFFFFFFFFFFFFFFFFFFFFFFFFFFFFFFFFFFFFFFFFFC01";
"8020000000000000000000000000000000000000000000000000000000000000000401";
"8020000000000000000000000000000000000000000000000000000000000000000401";
"8020000000000000000000000000000000000000000000000000000000000000000401";
"8020000000000000000000000000000000000000000000000000000000000000000401";
"8020000000000000000000000000000000000000000000000000000000000000000401";
"8020000000000000000000000000000000000000000000000000000000000000000401";
"8020000000000000000000000000000000000000000000000000000000000000000401";
"8020000000000000000000000000000000000000000000000000000000000000000401";
"8020000000000000000000000000000000000000000000000000000000000000000401";
"80200FFFFFFFFFFFFFFFFFFFFFFFFFFFFFFFFFFFFFFFFFFFFFFFFFFFFFFFFFFFF00401";
"8020080000000000000000000000000000000000000000000000000000000000100401";
"8020080000000000000000000000000000000000000000000000000000000000100401";
"8020080000000000000000000000000000000000000000000000000000000000100401";
"8020080000000000000000000000000000000000000000000000000000000000100401";
"8020080000000000000000000000000000000000000000000000000000000000100401";
"8020080000000000000000000000000000000000000000000000000000000000100401";
"8020080000000000000000000000000000000000000000000000000000000000100401";
"8020080000000000000000000000000000000000000000000000000000000000100401";
"8020080000000000000000000000000000000000000000000000000000000000100401";
"802008000000000000000000000000003FFFFE00000000000000000000000000100401";
"8020080000000000000000000000003FC01401FE000000000000000000000000100401";
"802008000000000000000000000007C000140001F00000000000000000000000100401";
"80200800000000000000000000007800002200000F0000000000000000000000100401";
"802008000000000000000000000780000022000000F000000000000000000000100401";
"8020080000000000000000000038000000410000000E00000000000000000000100401";
"80200800000000000000000001C00000004100000001C0000000000000000000100401";
"8020080000000000000000000600000000808000000030000000000000000000100401";
"802008000000000000000000380000000100400000000E000000000000000000100401";
"802008000000000000000000C000000001004000000001800000000000000000100401";
"8020080000000000000000030000000002002000000000600000000000000000100401";
"80200800000000000000000C0000000002002000000000180000000000000000100401";
"8020080000000000000000300000000004001000000000060000000000000000100401";
"8020080000000000000000C00000000004001000000000018000000000000000100401";
"8020080000000000000003000000000008000800000000006000000000000000100401";
"802008000000000000000C000000000010000400000000001800000000000000100401";
"8020080000000000000010000000000010000400000000000400000000000000100401";
"8020080000000000000060000000000020000200000000000300000000000000100401";
"80200800000000000001800000000000200002000000000000C0000000000000100401";
"8020080000000000000200000000000040000100000000000020000000000000100401";
"8020080000000000000400000000000040000100000000000010000000000000100401";
"802008000000000000180000000000008000008000000000000C000000000000100401";
"8020080000000000002000000000000100000040000000000002000000000000100401";
"8020080000000000004000000000000100000040000000000001000000000000100401";
"8020080000000000018000000000000200000020000000000000C00000000000100401";
"8020080000000000020000000000000200000020000000000000200000000000100401";
"8020080000000000040000000000000400000010000000000000100000000000100401";
"8020080000000000080000000000000400000010000000000000080000000000100401";
"8020080000000000100000000000000800000008000000000000040000000000100401";
"8020080000000000200000000000001000000004000000000000020000000000100401";
"8020080000000000C00000000000001000000004000000000000018000000000100401";
"8020080000000001000000000000002000000002000000000000004000000000100401";
"8020080000000002000000000000002000000002000000000000002000000000100401";
"8020080000000004000000000000004000000001000000000000001000000000100401";
"8020080000000008000000000000004000000001000000000000000800000000100401";
"8020080000000008000000000000008000000000800000000000000800000000100401";
"8020080000000010000000000000010000000000400000000000000400000000100401";
"8020080000000020000000000000010000000000400000000000000200000000100401";
"8020080000000040000000000000020000000000200000000000000100000000100401";
"8020080000000080000000000000020000000000200000000000000080000000100401";
"8020080000000100000000000000040000000000100000000000000040000000100401";
"8020080000000200000000000000040000000000100000000000000020000000100401";
"8020080000000200000000000000080000000000080000000000000020000000100401";
"8020080000000400000000000000100000000000040000000000000010000000100401";
"8020080000000800000000000000100000000000040000000000000008000000100401";
"8020080000001000000000000000200000000000020000000000000004000000100401";
"8020080000001000000000000000200000000000020000000000000004000000100401";
"8020080000002000000000000000400000000000010000000000000002000000100401";
"8020080000004000000000000000400000000000010000000000000001000000100401";
"8020080000008000000000000000800000000000008000000000000000800000100401";
"8020080000008000000000000001000000000000004000000000000000800000100401";
"8020080000010000000000000001000000000000004000000000000000400000100401";
"8020080000010000000000000002000000000000002000000000000000400000100401";
"8020080000020000000000000002000000000000002000000000000000200000100401";
"8020080000040000000000000004000000000000001000000000000000100000100401";
"8020080000040000000000000004000007FFF000001000000000000000100000100401";
"80200800000800000000000000080000FFFFFF80000800000000000000080000100401";
"8020080000080000000000000010000FFFFFFFF8000400000000000000080000100401";
"8020080000100000000000000010007FFFFFFFFF000400000000000000040000100401";
"802008000010000000000000002001FFFFFFFFFFC00200000000000000040000100401";
"802008000020000000000000002007FFFFFFFFFFF00200000000000000020000100401";
"80200800002000000000000000401FFFFFFFFFFFFC0100000000000000020000100401";
"80200800004000000000000000407FFFFFFFFFFFFF0100000000000000010000100401";
"8020080000400000000000000081FFFFFFFFFFFFFFC080000000000000010000100401";
"8020080000800000000000000103FFFFFFFFFFFFFFE040000000000000008000100401";
"802008000080000000000000010FFFFFFFFFFFFFFFF840000000000000008000100401";
"802008000100000000000000021FFFFFFFFFFFFFFFFC20000000000000004000100401";
"802008000100000000000000023FFFFFFFFFFFFFFFFE20000000000000004000100401";
"80200800020000000000000004FFFFFFFFFFFFFFFFFF90000000000000002000100401";
"80200800020000000000000005FFFFFFFFFFFFFFFFFFD0000000000000002000100401";
"8020080002000000000000000BFFFFFFFFFFFFFFFFFFE8000000000000002000100401";
"80200800040000000000000017FFFFFFFFFFFFFFFFFFF4000000000000001000100401";
"8020080004000000000000001FFFFFFFFFFFFFFFFFFFFC000000000000001000100401";
"8020080008000000000000003FFFFFFFFFFFFFFFFFFFFE000000000000000800100401";
"8020080008000000000000003FFFFFFFFFFFFFFFFFFFFE000000000000000800100401";
"8020080008000000000000007FFFFFFFFFFFFFFFFFFFFF000000000000000800100401";
"8020080010000000000000007FFFFFFFFFFFFFFFFFFFFF000000000000000400100401";
"802008001000000000000000FFFFFFFFFFFFFFFFFFFFFF800000000000000400100401";
"802008001000000000000001FFFFFFFFFFFFFFFFFFFFFFC00000000000000400100401";
"802008002000000000000001FFFFFFFFFFFFFFFFFFFFFFC00000000000000200100401";
"802008002000000000000003FFFFFFFFFFFFFFFFFFFFFFE00000000000000200100401";
"802008002000000000000007FFFFFFFFFFFFFFFFFFFFFFF00000000000000200100401";
"802008002000000000000007FFFFFFFFFFFFFFFFFFFFFFF00000000000000200100401";
"80200800400000000000000FFFFFFFFFFFFFFFFFFFFFFFF80000000000000100100401";
"80200800400000000000000FFFFFFFFFFFFFFFFFFFFFFFF80000000000000100100401";
"80200800400000000000001FFFFFFFFFFFFFFFFFFFFFFFFC0000000000000100100401";
"80200800400000000000001FFFFFFFFFFFFFFFFFFFFFFFFC0000000000000100100401";
"80200800800000000000003FFFFFFFFFFFFFFFFFFFFFFFFE0000000000000080100401";
"80200800800000000000003FFFFFFFFFFFFFFFFFFFFFFFFE0000000000000080100401";
"80200800800000000000007FFFFFFFFFFFFFFFFFFFFFFFFF0000000000000080100401";
"8020080080000000000000FFFFFFFFFFFFFFFFFFFFFFFFFF8000000000000080100401";
"8020080080000000000000FFFFFFFFFFFFFFFFFFFFFFFFFF8000000000000080100401";
"8020080100000000000001FFFFFFFFFFFFFFFFFFFFFFFFFFC000000000000040100401";
"8020080100000000000001FFFFFFFFFFFFFFFFFFFFFFFFFFC000000000000040100401";
"8020080100000000000003FFFFFFFFFFFFFFFFFFFFFFFFFFE000000000000040100401";
"8020080100000000000003FFFFFFFFFFFFFFFFFFFFFFFFFFE000000000000040100401";
"8020080100000000000005FFFFFFFFFFFFFFFFFFFFFFFFFFD000000000000040100401";
"8020080100000000000009FFFFFFFFFFFFFFFFFFFFFFFFFFC800000000000040100401";
"802008010000000000000BFFFFFFFFFFFFFFFFFFFFFFFFFFE800000000000040100401";
"8020080100000000000013FFFFFFFFFFFFFFFFFFFFFFFFFFE400000000000040100401";
"8020080200000000000013FFFFFFFFFFFFFFFFFFFFFFFFFFE400000000000020100401";
"8020080200000000000023FFFFFFFFFFFFFFFFFFFFFFFFFFE200000000000020100401";
"8020080200000000000023FFFFFFFFFFFFFFFFFFFFFFFFFFE200000000000020100401";
"8020080200000000000047FFFFFFFFFFFFFFFFFFFFFFFFFFF100000000000020100401";
"8020080200000000000087FFFFFFFFFFFFFFFFFFFFFFFFFFF080000000000020100401";
"8020080200000000000087FFFFFFFFFFFFFFFFFFFFFFFFFFF080000000000020100401";
"8020080200000000000107FFFFFFFFFFFFFFFFFFFFFFFFFFF040000000000020100401";
"8020080200000000000107FFFFFFFFFFFFFFFFFFFFFFFFFFF040000000000020100401";
"8020080200000000000207FFFFFFFFFFFFFFFFFFFFFFFFFFF020000000000020100401";
"8020080200000000000207FFFFFFFFFFFFFFFFFFFFFFFFFFF020000000000020100401";
"8020080200000000000407FFFFFFFFFFFFFFFFFFFFFFFFFFF010000000000020100401";
"8020080200000000000807FFFFFFFFFFFFFFFFFFFFFFFFFFF008000000000020100401";
"8020080200000000000807FFFFFFFFFFFFFFFFFFFFFFFFFFF008000000000020100401";
"8020080200000000001007FFFFFFFFFFFFFFFFFFFFFFFFFFF004000000000020100401";
"8020080200000000001007FFFFFFFFFFFFFFFFFFFFFFFFFFF004000000000020100401";
"8020080200000000002007FFFFFFFFFFFFFFFFFFFFFFFFFFF002000000000020100401";
"8020080200000000002007FFFFFFFFFFFFFFFFFFFFFFFFFFF002000000000020100401";
"8020080200000000004007FFFFFFFFFFFFFFFFFFFFFFFFFFF001000000000020100401";
"8020080200000000008003FFFFFFFFFFFFFFFFFFFFFFFFFFE000800000000020100401";
"8020080200000000008003FFFFFFFFFFFFFFFFFFFFFFFFFFE000800000000020100401";
"8020080200000000010003FFFFFFFFFFFFFFFFFFFFFFFFFFE000400000000020100401";
"8020080100000000010003FFFFFFFFFFFFFFFFFFFFFFFFFFE000400000000040100401";
"8020080100000000020003FFFFFFFFFFFFFFFFFFFFFFFFFFE000200000000040100401";
"8020080100000000020001FFFFFFFFFFFFFFFFFFFFFFFFFFC000200000000040100401";
"8020080100000000040001FFFFFFFFFFFFFFFFFFFFFFFFFFC000100000000040100401";
"8020080100000000080001FFFFFFFFFFFFFFFFFFFFFFFFFFC000080000000040100401";
"8020080100000000080001FFFFFFFFFFFFFFFFFFFFFFFFFFC000080000000040100401";
"8020080100000000100000FFFFFFFFFFFFFFFFFFFFFFFFFF8000040000000040100401";
"8020080100000000100000FFFFFFFFFFFFFFFFFFFFFFFFFF8000040000000040100401";
"8020080080000000200000FFFFFFFFFFFFFFFFFFFFFFFFFF8000020000000080100401";
"80200800800000002000007FFFFFFFFFFFFFFFFFFFFFFFFF0000020000000080100401";
"80200800800000004000007FFFFFFFFFFFFFFFFFFFFFFFFF0000010000000080100401";
"80200800800000008000003FFFFFFFFFFFFFFFFFFFFFFFFE0000008000000080100401";
"80200800800000008000003FFFFFFFFFFFFFFFFFFFFFFFFE0000008000000080100401";
"80200800400000010000001FFFFFFFFFFFFFFFFFFFFFFFFC0000004000000100100401";
"80200800400000010000001FFFFFFFFFFFFFFFFFFFFFFFFC0000004000000100100401";
"80200800400000020000000FFFFFFFFFFFFFFFFFFFFFFFF80000002000000100100401";
"80200800400000020000000FFFFFFFFFFFFFFFFFFFFFFFF80000002000000100100401";
"802008002000000400000007FFFFFFFFFFFFFFFFFFFFFFF00000001000000200100401";
"802008002000000800000007FFFFFFFFFFFFFFFFFFFFFFF00000000800000200100401";
"802008002000000800000003FFFFFFFFFFFFFFFFFFFFFFE00000000800000200100401";
"802008002000001000000001FFFFFFFFFFFFFFFFFFFFFFC00000000400000200100401";
"802008001000001000000001FFFFFFFFFFFFFFFFFFFFFFC00000000400000400100401";
"802008001000002000000000FFFFFFFFFFFFFFFFFFFFFF800000000200000400100401";
"8020080010000020000000007FFFFFFFFFFFFFFFFFFFFF000000000200000400100401";
"8020080008000040000000003FFFFFFFFFFFFFFFFFFFFE000000000100000800100401";
"8020080008000080000000003FFFFFFFFFFFFFFFFFFFFE000000000080000800100401";
"8020080008000080000000001FFFFFFFFFFFFFFFFFFFFC000000000080000800100401";
"8020080004000100000000000FFFFFFFFFFFFFFFFFFFF8000000000040001000100401";
"80200800040001000000000007FFFFFFFFFFFFFFFFFFF0000000000040001000100401";
"80200800020002000000000003FFFFFFFFFFFFFFFFFFE0000000000020002000100401";
"80200800020002000000000001FFFFFFFFFFFFFFFFFFC0000000000020002000100401";
"80200800020004000000000000FFFFFFFFFFFFFFFFFF80000000000010002000100401";
"802008000100080000000000003FFFFFFFFFFFFFFFFE00000000000008004000100401";
"802008000100080000000000001FFFFFFFFFFFFFFFFC00000000000008004000100401";
"802008000080100000000000000FFFFFFFFFFFFFFFF800000000000004008000100401";
"8020080000801000000000000003FFFFFFFFFFFFFFE000000000000004008000100401";
"8020080000402000000000000001FFFFFFFFFFFFFFC000000000000002010000100401";
"80200800004020000000000000007FFFFFFFFFFFFF0000000000000002010000100401";
"80200800002040000000000000001FFFFFFFFFFFFC0000000000000001020000100401";
"802008000020800000000000000007FFFFFFFFFFF00000000000000000820000100401";
"802008000010800000000000000001FFFFFFFFFFC00000000000000000840000100401";
"8020080000110000000000000000007FFFFFFFFF000000000000000000440000100401";
"8020080000090000000000000000000FFFFFFFF8000000000000000000480000100401";
"80200800000A00000000000000000000FFFFFF80000000000000000000280000100401";
"8020080000060000000000000000000007FFF000000000000000000000300000100401";
"802008000007FFFFFFFFFFFFFFFFFFFFFFFFFFFFFFFFFFFFFFFFFFFFFFF00000100401";
"8020080000020000000000000000000000000000000000000000000000200000100401";
"8020080000010000000000000000000000000000000000000000000000400000100401";
"8020080000010000000000000000000000000000000000000000000000400000100401";
"8020080000008000000000000000000000000000000000000000000000800000100401";
"8020080000008000000000000000000000000000000000000000000000800000100401";
"8020080000004000000000000000000000000000000000000000000001000000100401";
"8020080000002000000000000000000000000000000000000000000002000000100401";
"8020080000001000000000000000000000000000000000000000000004000000100401";
"8020080000001000000000000000000000000000000000000000000004000000100401";
"8020080000000800000000000000000000000000000000000000000008000000100401";
"8020080000000400000000000000000000000000000000000000000010000000100401";
"8020080000000200000000000000000000000000000000000000000020000000100401";
"8020080000000200000000000000000000000000000000000000000020000000100401";
"8020080000000100000000000000000000000000000000000000000040000000100401";
"8020080000000080000000000000000000000000000000000000000080000000100401";
"8020080000000040000000000000000000000000000000000000000100000000100401";
"8020080000000020000000000000000000000000000000000000000200000000100401";
"8020080000000010000000000000000000000000000000000000000400000000100401";
"8020080000000008000000000000000000000000000000000000000800000000100401";
"8020080000000008000000000000000000000000000000000000000800000000100401";
"8020080000000004000000000000000000000000000000000000001000000000100401";
"8020080000000002000000000000000000000000000000000000002000000000100401";
"8020080000000001000000000000000000000000000000000000004000000000100401";
"8020080000000000C00000000000000000000000000000000000018000000000100401";
"8020080000000000200000000000000000000000000000000000020000000000100401";
"8020080000000000100000000000000000000000000000000000040000000000100401";
"8020080000000000080000000000000000000000000000000000080000000000100401";
"8020080000000000040000000000000000000000000000000000100000000000100401";
"8020080000000000020000000000000000000000000000000000200000000000100401";
"8020080000000000018000000000000000000000000000000000C00000000000100401";
"8020080000000000004000000000000000000000000000000001000000000000100401";
"8020080000000000002000000000000000000000000000000002000000000000100401";
"802008000000000000180000000000000000000000000000000C000000000000100401";
"8020080000000000000400000000000000000000000000000010000000000000100401";
"8020080000000000000200000000000000000000000000000020000000000000100401";
"80200800000000000001800000000000000000000000000000C0000000000000100401";
"8020080000000000000060000000000000000000000000000300000000000000100401";
"8020080000000000000010000000000000000000000000000400000000000000100401";
"802008000000000000000C000000000000000000000000001800000000000000100401";
"8020080000000000000003000000000000000000000000006000000000000000100401";
"8020080000000000000000C00000000000000000000000018000000000000000100401";
"8020080000000000000000300000000000000000000000060000000000000000100401";
"80200800000000000000000C0000000000000000000000180000000000000000100401";
"8020080000000000000000030000000000000000000000600000000000000000100401";
"802008000000000000000000C000000000000000000001800000000000000000100401";
"802008000000000000000000380000000000000000000E000000000000000000100401";
"8020080000000000000000000600000000000000000030000000000000000000100401";
"80200800000000000000000001C00000000000000001C0000000000000000000100401";
"8020080000000000000000000038000000000000000E00000000000000000000100401";
"802008000000000000000000000780000000000000F000000000000000000000100401";
"80200800000000000000000000007800000000000F0000000000000000000000100401";
"802008000000000000000000000007C000000001F00000000000000000000000100401";
"8020080000000000000000000000003FC00001FE000000000000000000000000100401";
"802008000000000000000000000000003FFFFE00000000000000000000000000100401";
"8020080000000000000000000000000000000000000000000000000000000000100401";
"8020080000000000000000000000000000000000000000000000000000000000100401";
"8020080000000000000000000000000000000000000000000000000000000000100401";
"8020080000000000000000000000000000000000000000000000000000000000100401";
"8020080000000000000000000000000000000000000000000000000000000000100401";
"8020080000000000000000000000000000000000000000000000000000000000100401";
"8020080000000000000000000000000000000000000000000000000000000000100401";
"8020080000000000000000000000000000000000000000000000000000000000100401";
"8020080000000000000000000000000000000000000000000000000000000000100401";
"80200803FFFFFFFFFFFFFFFFFFFFFFFFFFFFFFFFFFFFFFFFFFFFFFFFFFFFFFC0100401";
"8020080200000000000000000000000000000000000000000000000000000040100401";
"8020080200000000000000000000000000000000000000000000000000000040100401";
"8020080200000000000000000000000000000000000000000000000000000040100401";
"8020080200000000000000000000000000000000000000000000000000000040100401";
"8020080200000000000000000000000000000000000000000000000000000040100401";
"8020080200000000000000000000000000000000000000000000000000000040100401";
"8020080200000000000000000000000000000000000000000000000000000040100401";
"8020080200000000000000000000000000000000000000000000000000000040100401";
"8020080200000000000000000000000000000000000000000000000000000040100401";
"8020080200000000000000000000000000000000000000000000000000000040100401";
"8020080200000000000000000000000000000000000000000000000000000040100401";
"8020080200000000000000000000000000000000000000000000000000000040100401";
"8020080200000000000000000000000000000000000000000000000000000040100401";
"8020080200000000000000000000000000000000000000000000000000000040100401";
"8020080200000000000000000000000000000000000000000000000000000040100401";
"8020080200000000000000000000000000000000000000000000000000000040100401";
"8020080200000000000000000000000000000000000000000000000000000040100401";
"8020080200000000000000000000000000000000000000000000000000000040100401";
"8020080200000000000000000000000000000000000000000000000000000040100401";
"8020080200003FFFFFFFFFFFFFFFFFFFFFFFFFFFFFFFFFFFFFFFFFFFFC000040100401";
"8020080200003FFFFFFFFFFFFFFFFFFFFFFFFFFFFFFFFFFFFFFFFFFFFC000040100401";
"8020080200003FFFFFFFFFFFFFFFFFFFFFFFFFFFFFFFFFFFFFFFFFFFFC000040100401";
"8020080200003FFFFFFFFFFFFFFFFFFFFFFFFFFFFFFFFFFFFFFFFFFFFC000040100401";
"8020080200003FFFFFFFFFFFFFFFFFFFFFFFFFFFFFFFFFFFFFFFFFFFFC000040100401";
"8020080200003FFFFFFFFFFFFFFFFFFFFFFFFFFFFFFFFFFFFFFFFFFFFC000040100401";
"8020080200003FFFFFFFFFFFFFFFFFFFFFFFFFFFFFFFFFFFFFFFFFFFFC000040100401";
"8020080200003FFFFFFFFFFFFFFFFFFFFFFFFFFFFFFFFFFFFFFFFFFFFC000040100401";
"8020080200003FFFFFFFFFFFFFFFFFFFFFFFFFFFFFFFFFFFFFFFFFFFFC000040100401";
"8020080200003FFFFFFFFFFFFFFFFFFFFFFFFFFFFFFFFFFFFFFFFFFFFC000040100401";
"8020080200003FFFFFFFFFFFFFFFFFFFFFFFFFFFFFFFFFFFFFFFFFFFFC000040100401";
"8020080200003FFFFFFFFFFFFFFFFFFFFFFFFFFFFFFFFFFFFFFFFFFFFC000040100401";
"8020080200003FFFFFFFFFFFFFFFFFFFFFFFFFFFFFFFFFFFFFFFFFFFFC000040100401";
"8020080200003FFFFFFFFFFFFFFFFFFFFFFFFFFFFFFFFFFFFFFFFFFFFC000040100401";
"8020080200003FFFFFFFFFFFFFFFFFFFFFFFFFFFFFFFFFFFFFFFFFFFFC000040100401";
"8020080200003FFFFFFFFFFFFFFFFFFFFFFFFFFFFFFFFFFFFFFFFFFFFC000040100401";
"8020080200003FFFFFFFFFFFFFFFFFFFFFFFFFFFFFFFFFFFFFFFFFFFFC000040100401";
"8020080200003FFFFFFFFFFFFFFFFFFFFFFFFFFFFFFFFFFFFFFFFFFFFC000040100401";
"8020080200003FFFFFFFFFFFFFFFFFFFFFFFFFFFFFFFFFFFFFFFFFFFFC000040100401";
"8020080200003FFFFFFFFFFFFFFFFFFFFFFFFFFFFFFFFFFFFFFFFFFFFC000040100401";
"8020080200003FFFFFFFFFFFFFFFFFFFFFFFFFFFFFFFFFFFFFFFFFFFFC000040100401";
"8020080200003FFFFFFFFFFFFFFFFFFFFFFFFFFFFFFFFFFFFFFFFFFFFC000040100401";
"8020080200003FFFFFFFFFFFFFFFFFFFFFFFFFFFFFFFFFFFFFFFFFFFFC000040100401";
"8020080200003FFFFFFFFFFFFFFFFFFFFFFFFFFFFFFFFFFFFFFFFFFFFC000040100401";
"8020080200003FFFFFFFFFFFFFFFFFFFFFFFFFFFFFFFFFFFFFFFFFFFFC000040100401";
"8020080200003FFFFFFFFFFFFFFFFFFFFFFFFFFFFFFFFFFFFFFFFFFFFC000040100401";
"8020080200003FFFFFFFFFFFFFFFFFFFFFFFFFFFFFFFFFFFFFFFFFFFFC000040100401";
"8020080200003FFFFFFFFFFFFFFFFFFFFFFFFFFFFFFFFFFFFFFFFFFFFC000040100401";
"8020080200003FFFFFFFFFFFFFFFFFFFFFFFFFFFFFFFFFFFFFFFFFFFFC000040100401";
"8020080200003FFFFFFFFFFFFFFFFFFFFFFFFFFFFFFFFFFFFFFFFFFFFC000040100401";
"8020080200003FFFFFFFFFFFFFFFFFFFFFFFFFFFFFFFFFFFFFFFFFFFFC000040100401";
"8020080200003FFFFFFFFFFFFFFFFFFFFFFFFFFFFFFFFFFFFFFFFFFFFC000040100401";
"8020080200003FFFFFFFFFFFFFFFFFFFFFFFFFFFFFFFFFFFFFFFFFFFFC000040100401";
"8020080200003FFFFFFFFFFFFFFFFFFFFFFFFFFFFFFFFFFFFFFFFFFFFC000040100401";
"8020080200003FFFFFFFFFFFFFFFFFFFFFFFFFFFFFFFFFFFFFFFFFFFFC000040100401";
"8020080200003FFFFFFFFFFFFFFFFFFFFFFFFFFFFFFFFFFFFFFFFFFFFC000040100401";
"8020080200003FFFFFFFFFFFFFFFFFFFFFFFFFFFFFFFFFFFFFFFFFFFFC000040100401";
"8020080200003FFFFFFFFFFFFFFFFFFFFFFFFFFFFFFFFFFFFFFFFFFFFC000040100401";
"8020080200003FFFFFFFFFFFFFFFFFFFFFFFFFFFFFFFFFFFFFFFFFFFFC000040100401";
"8020080200003FFFFFFFFFFFFFFFFFFFFFFFFFFFFFFFFFFFFFFFFFFFFC000040100401";
"8020080200000000000000000000000000000000000000000000000000000040100401";
"8020080200000000000000000000000000000000000000000000000000000040100401";
"8020080200000000000000000000000000000000000000000000000000000040100401";
"8020080200000000000000000000000000000000000000000000000000000040100401";
"8020080200000000000000000000000000000000000000000000000000000040100401";
"8020080200000000000000000000000000000000000000000000000000000040100401";
"8020080200000000000000000000000000000000000000000000000000000040100401";
"8020080200000000000000000000000000000000000000000000000000000040100401";
"8020080200000000000000000000000000000000000000000000000000000040100401";
"8020080200000000000000000000000000000000000000000000000000000040100401";
"8020080200000000000000000000000000000000000000000000000000000040100401";
"8020080200000000000000000000000000000000000000000000000000000040100401";
"8020080200000000000000000000000000000000000000000000000000000040100401";
"8020080200000000000000000000000000000000000000000000000000000040100401";
"8020080200000000000000000000000000000000000000000000000000000040100401";
"8020080200000000000000000000000000000000000000000000000000000040100401";
"8020080200000000000000000000000000000000000000000000000000000040100401";
"8020080200000000000000000000000000000000000000000000000000000040100401";
"8020080200000000000000000000000000000000000000000000000000000040100401";
"80200803FFFFFFFFFFFFFFFFFFFFFFFFFFFFFFFFFFFFFFFFFFFFFFFFFFFFFFC0100401";
"8020080000000000000000000000000000000000000000000000000000000000100401";
"8020080000000000000000000000000000000000000000000000000000000000100401";
"8020080000000000000000000000000000000000000000000000000000000000100401";
"8020080000000000000000000000000000000000000000000000000000000000100401";
"8020080000000000000000000000000000000000000000000000000000000000100401";
"8020080000000000000000000000000000000000000000000000000000000000100401";
"8020080000000000000000000000000000000000000000000000000000000000100401";
"8020080000000000000000000000000000000000000000000000000000000000100401";
"8020080000000000000000000000000000000000000000000000000000000000100401";
"8020080000000000000000000000000000000000000000000000000000000000100401";
"8020080000000000000000000000000000000000000000000000000000000000100401";
"8020080000000000000000000000000000000000000000000000000000000000100401";
"8020080000000000000000000000000000000000000000000000000000000000100401";
"8020080000000000000000000000000000000000000000000000000000000000100401";
"8020080000000000000000000000000000000000000000000000000000000000100401";
"8020080000000000000000000000000000000000000000000000000000000000100401";
"8020080000000000000000000000000000000000000000000000000000000000100401";
"8020080000000000000000000000000000000000000000000000000000000000100401";
"8020080000000000000000000000000000000000000000000000000000000000100401";
"8020080000000000000000000000000000000000000000000000000000000000100401";
"8020080000000003800E000038E000001C038038000000E000E0E00000000000100401";
"8020080000000003800E000038E000001C038070000000E000E0E00000000000100401";
"8020080000000003800E000038E000001C07C070000000E000E0E00000000000100401";
"8020080000000003800E000038E000001C06C070000000E000E0E00000000000100401";
"8020080000000003800E000038E000000E06C070000000E000E0E00000000000100401";
"8020080000000003800E000038E000000E06E0E0000000E000E0E00000000000100401";
"8020080000000003800E03F038E07E000E0CE0E03F039CE07CE0E00000000000100401";
"8020080000000003800E0FFC38E1FF800E0C60E0FFC3BCE1FFE0E00000000000100401";
"8020080000000003800E1E1E38E3C3C0060C60E1E1E3E0E3C3E0E00000000000100401";
"8020080000000003FFFE1C0E38E381C0070C70C1C0E3C0E381E0E00000000000100401";
"8020080000000003FFFE380738E781E0071871C3C0F380E781E0E00000000000100401";
"8020080000000003800E380738E700E0071831C3807380E700E0E00000000000100401";
"8020080000000003800E3FFF38E700E0031839C3807380E700E0E00000000000100401";
"8020080000000003800E3FFF38E700E003B83983807380E700E0E00000000000100401";
"8020080000000003800E380038E700E003B01B83807380E700E0400000000000100401";
"8020080000000003800E380038E700E003B01B83807380E700E0400000000000100401";
"8020080000000003800E380738E781E001B01F83C0F380E781E0000000000000100401";
"8020080000000003800E1C0E38E381C001E01F01C0E380E381E0000000000000100401";
"8020080000000003800E1E1E38E3C3C001E00F01E1E380E3C3E0E00000000000100401";
"8020080000000003800E0FFC38E1FF8000E00F00FFC380E1FF60E00000000000100401";
"8020080000000003800E03F038E07E0000E00F003F0380E07E60E00000000000100401";
"8020080000000000000000000000000000000000000000000000000000000000100401";
"8020080000000000000000000000000000000000000000000000000000000000100401";
"8020080000000000000000000000000000000000000000000000000000000000100401";
"8020080000000000000000000000000000000000000000000000000000000000100401";
"8020080000000000000000000000000000000000000000000000000000000000100401";
"8020080000000000000000000000000000000000000000000000000000000000100401";
"8020080000000000000000000000000000000000000000000000000000000000100401";
"8020080000000000000000000000000000000000000000000000000000000000100401";
"8020080000000000000000000000000000000000000000000000000000000000100401";
"8020080000000000000000000000000000000000000000000000000000000000100401";
"8020080000000000000000000000000000000000000000000000000000000000100401";
"8020080000000000000000000000000000000000000000000000000000000000100401";
"8020080000000000000000000000000000000000000000000000000000000000100401";
"8020080000000000000000000000000000000000000000000000000000000000100401";
"8020080000000000000000000000000000000000000000000000000000000000100401";
"8020080000000000000000000000000000000000000000000000000000000000100401";
"8020080000000000000000000000000000000000000000000000000000000000100401";
"8020080000000000000000000000000000000000000000000000000000000000100401";
"8020080000000000000000000000000000000000000000000000000000000000100401";
"8020080000000000000000000000000000000000000000000000000000000000100401";
"8020080000000000000000000000000000000000000000000000000000000000100401";
"8020080000000000000000000000000000000000000000000000000000000000100401";
"8020080000000000000000000000000000000000000000000000000000000000100401";
"8020080000000000000000000000000000000000000000000000000000000000100401";
"8020080000000000000000000000000000000000000000000000000000000000100401";
"8020080000000000000000000000000000000000000000000000000000000000100401";
"8020080000000000000000000000000000000000000000000000000000000000100401";
"8020080000000000000000000000000000000000000000000000000000000000100401";
"8020080000000000000000000000000000000000000000000000000000000000100401";
"8020080000000000000000000000000000000000000000000000000000000000100401";
"8020080000000000000000000000000000000000000000000000000000000000100401";
"8020080000000000000000000000000000000000000000000000000000000000100401";
"8020080000000000000000000000000000000000000000000000000000000000100401";
"8020080000000000000000000000000000000000000000000000000000000000100401";
"8020080000000000000000000000000000000000000000000000000000000000100401";
"8020080000000000000000000000000000000000000000000000000000000000100401";
"8020080000000000000000000000000000000000000000000000000000000000100401";
"8020080000000000000000000000000000000000000000000000000000000000100401";
"8020080000000000000000000000000000000000000000000000000000000000100401";
"8020080000000000000000000000000000000000000000000000000000000000100401";
"8020080000000000000000000000000000000000000000000000000000000000100401";
"8020080000000000000000000000000000000000000000000000000000000000100401";
"8020080000000000000000000000000000000000000000000000000000000000100401";
"8020080000000000000000000000000000000000000000000000000000000000100401";
"8020080000000000000000000000000000000000000000000000000000000000100401";
"8020080000000000000000000000000000000000000000000000000000000000100401";
"8020080000000000000000000000000000000000000000000000000000000000100401";
"8020080000000000000000000000000000000000000000000000000000000000100401";
"8020080000000000000000000000000000000000000000000000000000000000100401";
"8020080000000000000000000000000000000000000000000000000000000000100401";
"8020080000000000000000000000000000000000000000000000000000000000100401";
"8020080000000000000000000000000000000000000000000000000000000000100401";
"8020080000000000000000000000000000000000000000000000000000000000100401";
"8020080000000000000000000000000000000000000000000000000000000000100401";
"8020080000000000000000000000000000000000000000000000000000000000100401";
"8020080000000000000000000000000000000000000000000000000000000000100401";
"8020080000000000000000000000000000000000000000000000000000000000100401";
"8020080000000000000000000000000000000000000000000000000000000000100401";
"8020080000000000000000000000000000000000000000000000000000000000100401";
"8020080000000000000000000000000000000000000000000000000000000000100401";
"8020080000000000000000000000000000000000000000000000000000000000100401";
"8020080000000000000000000000000000000000000000000000000000000000100401";
"8020080000000000000000000000000000000000000000000000000000000000100401";
"8020080000000000000000000000000000000000000000000000000000000000100401";
"8020080000000000000000000000000000000000000000000000000000000000100401";
"8020080000000000000000000000000000000000000000000000000000000000100401";
"8020080000000000000000000000000000000000000000000000000000000000100401";
"8020080000000000000000000000000000000000000000000000000000000000100401";
"8020080000000000000000000000000000000000000000000000000000000000100401";
"8020080000000000000000000000000000000000000000000000000000000000100401";
"8020080000000000000000000000000000000000000000000000000000000000100401";
"8020080000000000000000000000000000000000000000000000000000000000100401";
"8020080000000000000000000000000000000000000000000000000000000000100401";
"8020080000000000000000000000000000000000000000000000000000000000100401";
"8020080000000000000000000000000000000000000000000000000000000000100401";
"8020080000000000000000000000000000000000000000000000000000000000100401";
"8020080000000000000000000000000000000000000000000000000000000000100401";
"8020080000000000000000000000000000000000000000000000000000000000100401";
"80200FFFFFFFFFFFFFFFFFFFFFFFFFFFFFFFFFFFFFFFFFFFFFFFFFFFFFFFFFFFF00401";
"8020000000000000000000000000000000000000000000000000000000000000000401";
"8020000000000000000000000000000000000000000000000000000000000000000401";
"8020000000000000000000000000000000000000000000000000000000000000000401";
"8020000000000000000000000000000000000000000000000000000000000000000401";
"8020000000000000000000000000000000000000000000000000000000000000000401";
"8020000000000000000000000000000000000000000000000000000000000000000401";
"8020000000000000000000000000000000000000000000000000000000000000000401";
"8020000000000000000000000000000000000000000000000000000000000000000401";
"8020000000000000000000000000000000000000000000000000000000000000000401";
"803FFFFFFFFFFFFFFFFFFFFFFFFFFFFFFFFFFFFFFFFFFFFFFFFFFFFFFFFFFFFFFFFC01";
"8000000000000000000000000000000000000000000000000000000000000000000001";
"8000000000000000000000000000000000000000000000000000000000000000000001";
"8000000000000000000000000000000000000000000000000000000000000000000001";
"8000000000000000000000000000000000000000000000000000000000000000000001";
"8000000000000000000000000000000000000000000000000000000000000000000001";
"8000000000000000000000000000000000000000000000000000000000000000000001";
"8000000000000000000000000000000000000000000000000000000000000000000001";
"8000000000000000000000000000000000000000000000000000000000000000000001";
"8000000000000000000000000000000000000000000000000000000000000000000001";
"FFFFFFFFFFFFFFFFFFFFFFFFFFFFFFFFFFFFFFFFFFFFFFFFFFFFFFFFFFFFFFFFFFFFFF"].

(** tests/data/MonochromeFrameBufferTest90.pbm:1-482 *)
Definition picture90 : list string := [
"FFFFFFFFFFFFFFFFFFFFFFFFFFFFFFFFFFFFFFFFFFFFFFFFFFFFFFFFFFFFFFFFFFFFFF";
"8000000000000000000000000000000000000000000000000000000000000000000001";
"8000000000000000000000000000000000000000000000000000000000000000000001";
"8000000000000000000000000000000000000000000000000000000000000000000001";
"8000000000000000000000000000000000000000000000000000000000000000000001";
"8000000000000000000000000000000000000000000000000000000000000000000001";
"8000000000000000000000000000000000000000000000000000000000000000000001";
"8000000000000000000000000000000000000000000000000000000000000000000001";
"8000000000000000000000000000000000000000000000000000000000000000000001";
"8000000000000000000000000000000000000000000000000000000000000000000001";
"803FFFFFFFFFFFFFFFFFFFFFFFFFFFFFFFFFFFFFFFFFFFFFFFFFFFFFFFFFFFFFFFFC01";
"8020000000000000000000000000000000000000000000000000000000000000000401";
"8020000000000000000000000000000000000000000000000000000000000000000401";
"8020000000000000000000000000000000000000000000000000000000000000000401";
"8020000000000000000000000000000000000000000000000000000000000000000401";
"8020000000000000000000000000000000000000000000000000000000000000000401";
"8020000000000000000000000000000000000000000000000000000000000000000401";
"8020000000000000000000000000000000000000000000000000000000000000000401";
"8020000000000000000000000000000000000000000000000000000000000000000401";
"8020000000000000000000000000000000000000000000000000000000000000000401";
"80200FFFFFFFFFFFFFFFFFFFFFFFFFFFFFFFFFFFFFFFFFFFFFFFFFFFFFFFFFFFF00401";
"8020080000000000000000000000000000000000000000000000000000000000100401";
"8020080000000000000000000000000000000000000000000000000000000000100401";
"8020080000000000000000000000000000000000000000000000000000000000100401";
"8020080000000000000000000000000000000000000000000000000000000000100401";
"8020080000000000000000000000000000000000000000000000000000000000100401";
"8020080000000000000000000000000000000000000000000000000000000000100401";
"8020080000000000000000000000000000000000000000000000000000000000100401";
"8020080000000000000000000000000000000000000000000000000000000000100401";
"8020080000000000000000000000000000000000000000000000000000000000100401";
"802008000000000000000000000000007FFFFC00000000000000000000000000100401";
"8020080000000000000000000000007F800003FC000000000000000000000000100401";
"80200800000000000000000000000F8000000003E00000000000000000000000100401";
"8020080000000000000000000000F000000000001E0000000000000000000000100401";
"802008000000000000000000000F00000000000001E000000000000000000000100401";
"8020080000000000000000000070000000000000001C00000000000000000000100401";
"8020080000000000000000000380000000000000000380000000000000000000100401";
"8020080000000000000000000C00000000000000000060000000000000000000100401";
"802008000000000000000000700000000000000000001C000000000000000000100401";
"8020080000000000000000018000000000000000000003000000000000000000100401";
"8020080000000000000000060000000000000000000000C00000000000000000100401";
"8020080000000000000000180000000000000000000000300000000000000000100401";
"80200800000000000000006000000000000000000000000C0000000000000000100401";
"8020080000000000000001800000000000000000000000030000000000000000100401";
"802008000000000000000600000000000000000000000000C000000000000000100401";
"8020080000000000000018000000000000000000000000003000000000000000100401";
"802008000000000000003C000000000000000000000000000800000000000000100401";
"80200800000000000000D3000000000000000000000000000600000000000000100401";
"8020080000000000000310C00000000000000000000000000180000000000000100401";
"8020080000000000000410200000000000000000000000000040000000000000100401";
"8020080000000000000810180000000000000000000000000020000000000000100401";
"8020080000000000003010060000000000000000000000000018000000000000100401";
"8020080000000000004010018000000000000000000000000004000000000000100401";
"8020080000000000008010004000000000000000000000000002000000000000100401";
"8020080000000000030010003000000000000000000000000001800000000000100401";
"8020080000000000040010000C00000000000000000000000000400000000000100401";
"8020080000000000080010000300000000000000000000000000200000000000100401";
"8020080000000000100010000080000000000000000000000000100000000000100401";
"8020080000000000200010000060000000000000000000000000080000000000100401";
"8020080000000000400010000018000000000000000000000000040000000000100401";
"8020080000000001800010000006000000000000000000000000030000000000100401";
"8020080000000002000010000001000000000000000000000000008000000000100401";
"8020080000000004000010000000C00000000000000000000000004000000000100401";
"8020080000000008000010000000300000000000000000000000002000000000100401";
"80200800000000100000100000000C0000000000000000000000001000000000100401";
"8020080000000010000010000000020000000000000000000000001000000000100401";
"8020080000000020000010000000018000000000000000000000000800000000100401";
"8020080000000040000010000000006000000000000000000000000400000000100401";
"8020080000000080000010000000001800000000000000000000000200000000100401";
"8020080000000100000010000000000400000000000000000000000100000000100401";
"8020080000000200000010000000000300000000000000000000000080000000100401";
"80200800000004000000100000000000C0000000000000000000000040000000100401";
"8020080000000400000010000000000030000000000000000000000040000000100401";
"8020080000000800000010000000000008000000000000000000000020000000100401";
"8020080000001000000010000000000006000000000000000000000010000000100401";
"8020080000002000000010000000000001800000000000000000000008000000100401";
"8020080000002000000010000000000000600000000000000000000008000000100401";
"8020080000004000000010000000000000100000000000000000000004000000100401";
"80200800000080000000100000000000000C0000000000000000000002000000100401";
"8020080000010000000010000000000000030000000000000000000001000000100401";
"802008000001000000001000000000000000C000000000000000000001000000100401";
"8020080000020000000010000000000000002000000000000000000000800000100401";
"8020080000020000000010000000000000001800000000000000000000800000100401";
"8020080000040000000010000000000000000600000000000000000000400000100401";
"8020080000080000000010000000000000000180000000000000000000200000100401";
"802008000008000000001000000000000FFFE040000000000000000000200000100401";
"80200800001000000000100000000001FFFFFF30000000000000000000100000100401";
"8020080000100000000010000000001FFFFFFFFC000000000000000000100000100401";
"802008000020000000001000000000FFFFFFFFFF000000000000000000080000100401";
"802008000020000000001000000003FFFFFFFFFF800000000000000000080000100401";
"80200800004000000000100000000FFFFFFFFFFFE00000000000000000040000100401";
"80200800004000000000100000003FFFFFFFFFFFF80000000000000000040000100401";
"8020080000800000000010000000FFFFFFFFFFFFFE0000000000000000020000100401";
"8020080000800000000010000003FFFFFFFFFFFFFF8000000000000000020000100401";
"8020080001000000000010000007FFFFFFFFFFFFFFC000000000000000010000100401";
"802008000100000000001000001FFFFFFFFFFFFFFFF000000000000000010000100401";
"802008000200000000001000003FFFFFFFFFFFFFFFF800000000000000008000100401";
"802008000200000000001000007FFFFFFFFFFFFFFFFE00000000000000008000100401";
"80200800040000000000100001FFFFFFFFFFFFFFFFFF80000000000000004000100401";
"80200800040000000000100003FFFFFFFFFFFFFFFFFFE0000000000000004000100401";
"80200800040000000000100007FFFFFFFFFFFFFFFFFFD0000000000000004000100401";
"8020080008000000000010000FFFFFFFFFFFFFFFFFFFEC000000000000002000100401";
"8020080008000000000010001FFFFFFFFFFFFFFFFFFFF3000000000000002000100401";
"8020080010000000000010003FFFFFFFFFFFFFFFFFFFF8C00000000000001000100401";
"8020080010000000000010007FFFFFFFFFFFFFFFFFFFFC200000000000001000100401";
"8020080010000000000010007FFFFFFFFFFFFFFFFFFFFC180000000000001000100401";
"802008002000000000001000FFFFFFFFFFFFFFFFFFFFFE060000000000000800100401";
"802008002000000000001001FFFFFFFFFFFFFFFFFFFFFF018000000000000800100401";
"802008002000000000001003FFFFFFFFFFFFFFFFFFFFFF804000000000000800100401";
"802008004000000000001003FFFFFFFFFFFFFFFFFFFFFF803000000000000400100401";
"802008004000000000001007FFFFFFFFFFFFFFFFFFFFFFC00C00000000000400100401";
"80200800400000000000100FFFFFFFFFFFFFFFFFFFFFFFE00300000000000400100401";
"80200800400000000000100FFFFFFFFFFFFFFFFFFFFFFFE00080000000000400100401";
"80200800800000000000101FFFFFFFFFFFFFFFFFFFFFFFF00060000000000200100401";
"80200800800000000000101FFFFFFFFFFFFFFFFFFFFFFFF00018000000000200100401";
"80200800800000000000103FFFFFFFFFFFFFFFFFFFFFFFF80006000000000200100401";
"80200800800000000000103FFFFFFFFFFFFFFFFFFFFFFFF80001000000000200100401";
"80200801000000000000107FFFFFFFFFFFFFFFFFFFFFFFFC0000C00000000100100401";
"80200801000000000000107FFFFFFFFFFFFFFFFFFFFFFFFC0000300000000100100401";
"8020080100000000000010FFFFFFFFFFFFFFFFFFFFFFFFFE00000C0000000100100401";
"8020080100000000000010FFFFFFFFFFFFFFFFFFFFFFFFFE0000020000000100100401";
"8020080100000000000011FFFFFFFFFFFFFFFFFFFFFFFFFF0000018000000100100401";
"8020080200000000000011FFFFFFFFFFFFFFFFFFFFFFFFFF0000006000000080100401";
"8020080200000000000011FFFFFFFFFFFFFFFFFFFFFFFFFF0000001800000080100401";
"8020080200000000000013FFFFFFFFFFFFFFFFFFFFFFFFFF8000000400000080100401";
"8020080200000000000013FFFFFFFFFFFFFFFFFFFFFFFFFF8000000300000080100401";
"8020080200000000000013FFFFFFFFFFFFFFFFFFFFFFFFFF80000000C0000080100401";
"8020080200000000000013FFFFFFFFFFFFFFFFFFFFFFFFFF8000000030000080100401";
"8020080200000000000017FFFFFFFFFFFFFFFFFFFFFFFFFFC000000008000080100401";
"8020080200000000000017FFFFFFFFFFFFFFFFFFFFFFFFFFC000000006000080100401";
"8020080400000000000017FFFFFFFFFFFFFFFFFFFFFFFFFFC000000001800040100401";
"8020080400000000000017FFFFFFFFFFFFFFFFFFFFFFFFFFC000000000600040100401";
"8020080400000000000017FFFFFFFFFFFFFFFFFFFFFFFFFFC000000000100040100401";
"802008040000000000001FFFFFFFFFFFFFFFFFFFFFFFFFFFE0000000000C0040100401";
"802008040000000000001FFFFFFFFFFFFFFFFFFFFFFFFFFFE000000000030040100401";
"802008040000000000001FFFFFFFFFFFFFFFFFFFFFFFFFFFE00000000000C040100401";
"802008040000000000001FFFFFFFFFFFFFFFFFFFFFFFFFFFE000000000002040100401";
"802008040000000000001FFFFFFFFFFFFFFFFFFFFFFFFFFFE000000000001840100401";
"802008040000000000001FFFFFFFFFFFFFFFFFFFFFFFFFFFE000000000000640100401";
"802008040000000000001FFFFFFFFFFFFFFFFFFFFFFFFFFFE0000000000001C0100401";
"802008040000000000001FFFFFFFFFFFFFFFFFFFFFFFFFFFE000000000000040100401";
"802008040000000000001FFFFFFFFFFFFFFFFFFFFFFFFFFFE0000000000001C0100401";
"802008040000000000001FFFFFFFFFFFFFFFFFFFFFFFFFFFE000000000000640100401";
"802008040000000000001FFFFFFFFFFFFFFFFFFFFFFFFFFFE000000000001840100401";
"802008040000000000001FFFFFFFFFFFFFFFFFFFFFFFFFFFE000000000002040100401";
"802008040000000000001FFFFFFFFFFFFFFFFFFFFFFFFFFFE00000000000C040100401";
"802008040000000000001FFFFFFFFFFFFFFFFFFFFFFFFFFFE000000000030040100401";
"802008040000000000001FFFFFFFFFFFFFFFFFFFFFFFFFFFE0000000000C0040100401";
"8020080400000000000017FFFFFFFFFFFFFFFFFFFFFFFFFFC000000000100040100401";
"8020080400000000000017FFFFFFFFFFFFFFFFFFFFFFFFFFC000000000600040100401";
"8020080400000000000017FFFFFFFFFFFFFFFFFFFFFFFFFFC000000001800040100401";
"8020080200000000000017FFFFFFFFFFFFFFFFFFFFFFFFFFC000000006000080100401";
"8020080200000000000017FFFFFFFFFFFFFFFFFFFFFFFFFFC000000008000080100401";
"8020080200000000000013FFFFFFFFFFFFFFFFFFFFFFFFFF8000000030000080100401";
"8020080200000000000013FFFFFFFFFFFFFFFFFFFFFFFFFF80000000C0000080100401";
"8020080200000000000013FFFFFFFFFFFFFFFFFFFFFFFFFF8000000300000080100401";
"8020080200000000000013FFFFFFFFFFFFFFFFFFFFFFFFFF8000000400000080100401";
"8020080200000000000011FFFFFFFFFFFFFFFFFFFFFFFFFF0000001800000080100401";
"8020080200000000000011FFFFFFFFFFFFFFFFFFFFFFFFFF0000006000000080100401";
"8020080100000000000011FFFFFFFFFFFFFFFFFFFFFFFFFF0000018000000100100401";
"8020080100000000000010FFFFFFFFFFFFFFFFFFFFFFFFFE0000020000000100100401";
"8020080100000000000010FFFFFFFFFFFFFFFFFFFFFFFFFE00000C0000000100100401";
"80200801000000000000107FFFFFFFFFFFFFFFFFFFFFFFFC0000300000000100100401";
"80200801000000000000107FFFFFFFFFFFFFFFFFFFFFFFFC0000C00000000100100401";
"80200800800000000000103FFFFFFFFFFFFFFFFFFFFFFFF80001000000000200100401";
"80200800800000000000103FFFFFFFFFFFFFFFFFFFFFFFF80006000000000200100401";
"80200800800000000000101FFFFFFFFFFFFFFFFFFFFFFFF00018000000000200100401";
"80200800800000000000101FFFFFFFFFFFFFFFFFFFFFFFF00060000000000200100401";
"80200800400000000000100FFFFFFFFFFFFFFFFFFFFFFFE00080000000000400100401";
"80200800400000000000100FFFFFFFFFFFFFFFFFFFFFFFE00300000000000400100401";
"802008004000000000001007FFFFFFFFFFFFFFFFFFFFFFC00C00000000000400100401";
"802008004000000000001003FFFFFFFFFFFFFFFFFFFFFF803000000000000400100401";
"802008002000000000001003FFFFFFFFFFFFFFFFFFFFFF804000000000000800100401";
"802008002000000000001001FFFFFFFFFFFFFFFFFFFFFF018000000000000800100401";
"802008002000000000001000FFFFFFFFFFFFFFFFFFFFFE060000000000000800100401";
"8020080010000000000010007FFFFFFFFFFFFFFFFFFFFC180000000000001000100401";
"8020080010000000000010007FFFFFFFFFFFFFFFFFFFFC200000000000001000100401";
"8020080010000000000010003FFFFFFFFFFFFFFFFFFFF8C00000000000001000100401";
"8020080008000000000010001FFFFFFFFFFFFFFFFFFFF3000000000000002000100401";
"8020080008000000000010000FFFFFFFFFFFFFFFFFFFEC000000000000002000100401";
"80200800040000000000100007FFFFFFFFFFFFFFFFFFD0000000000000004000100401";
"80200800040000000000100003FFFFFFFFFFFFFFFFFFE0000000000000004000100401";
"80200800040000000000100001FFFFFFFFFFFFFFFFFF80000000000000004000100401";
"802008000200000000001000007FFFFFFFFFFFFFFFFE00000000000000008000100401";
"802008000200000000001000003FFFFFFFFFFFFFFFF800000000000000008000100401";
"802008000100000000001000001FFFFFFFFFFFFFFFF000000000000000010000100401";
"8020080001000000000010000007FFFFFFFFFFFFFFC000000000000000010000100401";
"8020080000800000000010000003FFFFFFFFFFFFFF8000000000000000020000100401";
"8020080000800000000010000000FFFFFFFFFFFFFE0000000000000000020000100401";
"80200800004000000000100000003FFFFFFFFFFFF80000000000000000040000100401";
"80200800004000000000100000000FFFFFFFFFFFE00000000000000000040000100401";
"802008000020000000001000000003FFFFFFFFFF800000000000000000080000100401";
"802008000020000000001000000000FFFFFFFFFF000000000000000000080000100401";
"8020080000100000000010000000001FFFFFFFFC000000000000000000100000100401";
"80200800001000000000100000000001FFFFFF30000000000000000000100000100401";
"802008000008000000001000000000000FFFE040000000000000000000200000100401";
"8020080000080000000010000000000000000180000000000000000000200000100401";
"8020080000040000000010000000000000000600000000000000000000400000100401";
"8020080000020000000010000000000000001800000000000000000000800000100401";
"8020080000020000000010000000000000002000000000000000000000800000100401";
"802008000001000000001000000000000000C000000000000000000001000000100401";
"8020080000010000000010000000000000030000000000000000000001000000100401";
"80200800000080000000100000000000000C0000000000000000000002000000100401";
"8020080000004000000010000000000000100000000000000000000004000000100401";
"8020080000002000000010000000000000600000000000000000000008000000100401";
"8020080000002000000010000000000001800000000000000000000008000000100401";
"8020080000001000000010000000000006000000000000000000000010000000100401";
"8020080000000800000010000000000008000000000000000000000020000000100401";
"8020080000000400000010000000000030000000000000000000000040000000100401";
"80200800000004000000100000000000C0000000000000000000000040000000100401";
"8020080000000200000010000000000300000000000000000000000080000000100401";
"8020080000000100000010000000000400000000000000000000000100000000100401";
"8020080000000080000010000000001800000000000000000000000200000000100401";
"8020080000000040000010000000006000000000000000000000000400000000100401";
"8020080000000020000010000000018000000000000000000000000800000000100401";
"8020080000000010000010000000020000000000000000000000001000000000100401";
"80200800000000100000100000000C0000000000000000000000001000000000100401";
"8020080000000008000010000000300000000000000000000000002000000000100401";
"8020080000000004000010000000C00000000000000000000000004000000000100401";
"8020080000000002000010000001000000000000000000000000008000000000100401";
"8020080000000001800010000006000000000000000000000000030000000000100401";
"8020080000000000400010000018000000000000000000000000040000000000100401";
"8020080000000000200010000060000000000000000000000000080000000000100401";
"8020080000000000100010000080000000000000000000000000100000000000100401";
"8020080000000000080010000300000000000000000000000000200000000000100401";
"8020080000000000040010000C00000000000000000000000000400000000000100401";
"8020080000000000030010003000000000000000000000000001800000000000100401";
"8020080000000000008010004000000000000000000000000002000000000000100401";
"8020080000000000004010018000000000000000000000000004000000000000100401";
"8020080000000000003010060000000000000000000000000018000000000000100401";
"8020080000000000000810180000000000000000000000000020000000000000100401";
"8020080000000000000410200000000000000000000000000040000000000000100401";
"8020080000000000000310C00000000000000000000000000180000000000000100401";
"80200800000000000000D3000000000000000000000000000600000000000000100401";
"802008000000000000003C000000000000000000000000000800000000000000100401";
"8020080000000000000018000000000000000000000000003000000000000000100401";
"802008000000000000000600000000000000000000000000C000000000000000100401";
"8020080000000000000001800000000000000000000000030000000000000000100401";
"80200800000000000000006000000000000000000000000C0000000000000000100401";
"8020080000000000000000180000000000000000000000300000000000000000100401";
"8020080000000000000000060000000000000000000000C00000000000000000100401";
"8020080000000000000000018000000000000000000003000000000000000000100401";
"802008000000000000000000700000000000000000001C000000000000000000100401";
"8020080000000000000000000C00000000000000000060000000000000000000100401";
"8020080000000000000000000380000000000000000380000000000000000000100401";
"8020080000000000000000000070000000000000001C00000000000000000000100401";
"802008000000000000000000000F00000000000001E000000000000000000000100401";
"8020080000000000000000000000F000000000001E0000000000000000000000100401";
"80200800000000000000000000000F8000000003E00000000000000000000000100401";
"8020080000000000000000000000007F800003FC000000000000000000000000100401";
"802008000000000000000000000000007FFFFC00000000000000000000000000100401";
"8020080000000000000000000000000000000000000000000000000000000000100401";
"8020080000000000000000000000000000000000000000000000000000000000100401";
"8020080000000000000000000000000000000000000000000000000000000000100401";
"8020080000000000000000000000000000000000000000000000000000000000100401";
"8020080000000000000000000000000000000000000000000000000000000000100401";
"8020080000000000000000000000000000000000000000000000000000000000100401";
"8020080000000000000000000000000000000000000000000000000000000000100401";
"8020080000000000000000000000000000000000000000000000000000000000100401";
"8020080000000000000000000000000000000000000000000000000000000000100401";
"8020080000000000000000000000000000000000003FFFFFFFFFFFFFFFFFFFC0100401";
"8020080000000000000000000000000000000000002000000000000000000040100401";
"8020080000000000000000000000000000000000002000000000000000000040100401";
"8020080000000000000000000000000000000000002000000000000000000040100401";
"8020080000000000000000000000000000000000002000000000000000000040100401";
"8020080000000000000000000000000000000000002000000000000000000040100401";
"8020080000000000000000000000000000000000002000000000000000000040100401";
"8020080000000000000000000000000000000000002000000000000000000040100401";
"8020080000000000000000000000000000000000002000000000000000000040100401";
"8020080000000000000000000000000000000000002000000000000000000040100401";
"8020080000000000000000000000000000000000002000000000000000000040100401";
"8020080000000000000000000000000000000000002000000000000000000040100401";
"8020080000000000000000000000000000000000002000000000000000000040100401";
"8020080000000000000000000000000000000000002000000000000000000040100401";
"8020080000000000000000000000000000000000002000000000000000000040100401";
"8020080000000000000000000000000000000000002000000000000000000040100401";
"8020080000000000000000000000000000000000002000000000000000000040100401";
"8020080000000000000000000000000000000000002000000000000000000040100401";
"8020080000000000000000000000000000000000002000000000000000000040100401";
"8020080000000000000000000000000000000000002000000000000000000040100401";
"802008000000000000000000000001000000000000200003FFFFFFFFFC000040100401";
"802008000000000000000000000001000000000000200003FFFFFFFFFC000040100401";
"802008000000000000000000000001FFFFF0000000200003FFFFFFFFFC000040100401";
"802008000000000000000000000001FFFFF0000000200003FFFFFFFFFC000040100401";
"802008000000000000000000000001FFFFF0000000200003FFFFFFFFFC000040100401";
"802008000000000000000000000001006000000000200003FFFFFFFFFC000040100401";
"802008000000000000000000000001006000000000200003FFFFFFFFFC000040100401";
"802008000000000000000000000001006000000000200003FFFFFFFFFC000040100401";
"802008000000000000000000000001006000000000200003FFFFFFFFFC000040100401";
"802008000000000000000000000001006000000000200003FFFFFFFFFC000040100401";
"802008000000000000000000000001006000000000200003FFFFFFFFFC000040100401";
"802008000000000000000000000001006000000000200003FFFFFFFFFC000040100401";
"802008000000000000000000000001006000000000200003FFFFFFFFFC000040100401";
"802008000000000000000000000001006000000000200003FFFFFFFFFC000040100401";
"802008000000000000000000000001006000000000200003FFFFFFFFFC000040100401";
"802008000000000000000000000001006000000000200003FFFFFFFFFC000040100401";
"802008000000000000000000000001FFFFF0000000200003FFFFFFFFFC000040100401";
"802008000000000000000000000001FFFFF0000000200003FFFFFFFFFC000040100401";
"802008000000000000000000000001FFFFF0000000200003FFFFFFFFFC000040100401";
"802008000000000000000000000001000000000000200003FFFFFFFFFC000040100401";
"802008000000000000000000000001000000000000200003FFFFFFFFFC000040100401";
"802008000000000000000000000001000000000000200003FFFFFFFFFC000040100401";
"8020080000000000000000000000011FC000000000200003FFFFFFFFFC000040100401";
"8020080000000000000000000000017FF000000000200003FFFFFFFFFC000040100401";
"802008000000000000000000000001FFF800000000200003FFFFFFFFFC000040100401";
"802008000000000000000000000001E33800000000200003FFFFFFFFFC000040100401";
"802008000000000000000000000001C31C00000000200003FFFFFFFFFC000040100401";
"802008000000000000000000000001830C00000000200003FFFFFFFFFC000040100401";
"802008000000000000000000000001830C00000000200003FFFFFFFFFC000040100401";
"802008000000000000000000000001830C00000000200003FFFFFFFFFC000040100401";
"802008000000000000000000000001830C00000000200003FFFFFFFFFC000040100401";
"802008000000000000000000000001C31C00000000200003FFFFFFFFFC000040100401";
"802008000000000000000000000001E33800000000200003FFFFFFFFFC000040100401";
"802008000000000000000000000001F3F800000000200003FFFFFFFFFC000040100401";
"80200800000000000000000000000173F000000000200003FFFFFFFFFC000040100401";
"80200800000000000000000000000113C000000000200003FFFFFFFFFC000040100401";
"802008000000000000000000000001000000000000200003FFFFFFFFFC000040100401";
"802008000000000000000000000001000000000000200003FFFFFFFFFC000040100401";
"802008000000000000000000000001FFFFF0000000200003FFFFFFFFFC000040100401";
"802008000000000000000000000001FFFFF0000000200003FFFFFFFFFC000040100401";
"802008000000000000000000000001FFFFF0000000200003FFFFFFFFFC000040100401";
"802008000000000000000000000001000000000000200003FFFFFFFFFC000040100401";
"802008000000000000000000000001000000000000200003FFFFFFFFFC000040100401";
"802008000000000000000000000001000000000000200003FFFFFFFFFC000040100401";
"802008000000000000000000000001FFFFF0000000200003FFFFFFFFFC000040100401";
"802008000000000000000000000001FFFFF0000000200003FFFFFFFFFC000040100401";
"802008000000000000000000000001FFFFF0000000200003FFFFFFFFFC000040100401";
"802008000000000000000000000001000000000000200003FFFFFFFFFC000040100401";
"802008000000000000000000000001000000000000200003FFFFFFFFFC000040100401";
"8020080000000000000000000000011FC000000000200003FFFFFFFFFC000040100401";
"8020080000000000000000000000017FF000000000200003FFFFFFFFFC000040100401";
"802008000000000000000000000001FFF800000000200003FFFFFFFFFC000040100401";
"802008000000000000000000000001F07800000000200003FFFFFFFFFC000040100401";
"802008000000000000000000000001C01C00000000200003FFFFFFFFFC000040100401";
"802008000000000000000000000001800C00000000200003FFFFFFFFFC000040100401";
"802008000000000000000000000001800C00000000200003FFFFFFFFFC000040100401";
"802008000000000000000000000001800C00000000200003FFFFFFFFFC000040100401";
"802008000000000000000000000001800C00000000200003FFFFFFFFFC000040100401";
"802008000000000000000000000001C01C00000000200003FFFFFFFFFC000040100401";
"802008000000000000000000000001F07800000000200003FFFFFFFFFC000040100401";
"802008000000000000000000000001FFF800000000200003FFFFFFFFFC000040100401";
"8020080000000000000000000000017FF000000000200003FFFFFFFFFC000040100401";
"8020080000000000000000000000011FC000000000200003FFFFFFFFFC000040100401";
"802008000000000000000000000001000000000000200003FFFFFFFFFC000040100401";
"802008000000000000000000000001000000000000200003FFFFFFFFFC000040100401";
"802008000000000000000000000001000000000000200003FFFFFFFFFC000040100401";
"802008000000000000000000000001000000000000200003FFFFFFFFFC000040100401";
"802008000000000000000000000001000000000000200003FFFFFFFFFC000040100401";
"802008000000000000000000000001000000000000200003FFFFFFFFFC000040100401";
"802008000000000000000000000001000000000000200003FFFFFFFFFC000040100401";
"802008000000000000000000000001000000000000200003FFFFFFFFFC000040100401";
"8020080000000000000000000000010000F0000000200003FFFFFFFFFC000040100401";
"802008000000000000000000000001000FF0000000200003FFFFFFFFFC000040100401";
"80200800000000000000000000000100FFF0000000200003FFFFFFFFFC000040100401";
"8020080000000000000000000000010FFF00000000200003FFFFFFFFFC000040100401";
"8020080000000000000000000000017FE000000000200003FFFFFFFFFC000040100401";
"802008000000000000000000000001FE0000000000200003FFFFFFFFFC000040100401";
"802008000000000000000000000001E00000000000200003FFFFFFFFFC000040100401";
"802008000000000000000000000001FE0000000000200003FFFFFFFFFC000040100401";
"8020080000000000000000000000011FC000000000200003FFFFFFFFFC000040100401";
"80200800000000000000000000000103FC00000000200003FFFFFFFFFC000040100401";
"802008000000000000000000000001003FC0000000200003FFFFFFFFFC000040100401";
"8020080000000000000000000000010003F0000000200003FFFFFFFFFC000040100401";
"802008000000000000000000000001000070000000200003FFFFFFFFFC000040100401";
"8020080000000000000000000000010007F0000000200003FFFFFFFFFC000040100401";
"802008000000000000000000000001007FC0000000200003FFFFFFFFFC000040100401";
"80200800000000000000000000000103FE00000000200003FFFFFFFFFC000040100401";
"8020080000000000000000000000013FE000000000200003FFFFFFFFFC000040100401";
"802008000000000000000000000001FF0000000000200003FFFFFFFFFC000040100401";
"802008000000000000000000000001F00000000000200003FFFFFFFFFC000040100401";
"802008000000000000000000000001FC0000000000200003FFFFFFFFFC000040100401";
"802008000000000000000000000001FFC000000000200003FFFFFFFFFC000040100401";
"8020080000000000000000000000011FFE00000000200003FFFFFFFFFC000040100401";
"80200800000000000000000000000101FFE0000000200003FFFFFFFFFC000040100401";
"802008000000000000000000000001001FF0000000200003FFFFFFFFFC000040100401";
"8020080000000000000000000000010001F0000000200003FFFFFFFFFC000040100401";
"802008000000000000000000000001000010000000200003FFFFFFFFFC000040100401";
"802008000000000000000000000001000000000000200003FFFFFFFFFC000040100401";
"8020080000000000000000000000011FC000000000200003FFFFFFFFFC000040100401";
"8020080000000000000000000000017FF000000000200003FFFFFFFFFC000040100401";
"802008000000000000000000000001FFF800000000200003FFFFFFFFFC000040100401";
"802008000000000000000000000000F07800000000200003FFFFFFFFFC000040100401";
"802008000000000000000000000001C01C00000000200003FFFFFFFFFC000040100401";
"802008000000000000000000000001800C00000000200003FFFFFFFFFC000040100401";
"802008000000000000000000000001800C00000000200003FFFFFFFFFC000040100401";
"802008000000000000000000000001800C00000000200003FFFFFFFFFC000040100401";
"802008000000000000000000000001800C00000000200003FFFFFFFFFC000040100401";
"802008000000000000000000000001C01C00000000200003FFFFFFFFFC000040100401";
"802008000000000000000000000000F07800000000200003FFFFFFFFFC000040100401";
"802008000000000000000000000000FFF800000000200003FFFFFFFFFC000040100401";
"8020080000000000000000000000007FF000000000200003FFFFFFFFFC000040100401";
"8020080000000000000000000000001FC000000000200003FFFFFFFFFC000040100401";
"802008000000000000000000000000000000000000200003FFFFFFFFFC000040100401";
"802008000000000000000000000000000000000000200003FFFFFFFFFC000040100401";
"802008000000000000000000000001FFFC00000000200003FFFFFFFFFC000040100401";
"802008000000000000000000000001FFFC00000000200003FFFFFFFFFC000040100401";
"802008000000000000000000000001FFFC00000000200003FFFFFFFFFC000040100401";
"802008000000000000000000000000003000000000200003FFFFFFFFFC000040100401";
"802008000000000000000000000000001800000000200003FFFFFFFFFC000040100401";
"802008000000000000000000000000000C00000000200003FFFFFFFFFC000040100401";
"802008000000000000000000000000000C00000000200003FFFFFFFFFC000040100401";
"802008000000000000000000000000000C00000000200003FFFFFFFFFC000040100401";
"802008000000000000000000000000000000000000200003FFFFFFFFFC000040100401";
"802008000000000000000000000000000000000000200003FFFFFFFFFC000040100401";
"802008000000000000000000000001FFFFF0000000200003FFFFFFFFFC000040100401";
"802008000000000000000000000001FFFFF0000000200003FFFFFFFFFC000040100401";
"802008000000000000000000000001FFFFF0000000200003FFFFFFFFFC000040100401";
"802008000000000000000000000000000000000000200003FFFFFFFFFC000040100401";
"802008000000000000000000000000000000000000200003FFFFFFFFFC000040100401";
"8020080000000000000000000000001FC000000000200003FFFFFFFFFC000040100401";
"8020080000000000000000000000007FF000000000200003FFFFFFFFFC000040100401";
"802008000000000000000000000000FFF800000000200003FFFFFFFFFC000040100401";
"802008000000000000000000000000F07800000000200003FFFFFFFFFC000040100401";
"802008000000000000000000000001C01C00000000200003FFFFFFFFFC000040100401";
"802008000000000000000000000001800C00000000200003FFFFFFFFFC000040100401";
"802008000000000000000000000001800C00000000200003FFFFFFFFFC000040100401";
"802008000000000000000000000001800C00000000200003FFFFFFFFFC000040100401";
"802008000000000000000000000001800C00000000200003FFFFFFFFFC000040100401";
"802008000000000000000000000001C01800000000200003FFFFFFFFFC000040100401";
"802008000000000000000000000000F07800000000200003FFFFFFFFFC000040100401";
"8020080000000000000000000000007FFFF0000000200003FFFFFFFFFC000040100401";
"802008000000000000000000000001FFFFF0000000200003FFFFFFFFFC000040100401";
"802008000000000000000000000001FFFFF0000000200003FFFFFFFFFC000040100401";
"802008000000000000000000000000000000000000200003FFFFFFFFFC000040100401";
"802008000000000000000000000000000000000000200003FFFFFFFFFC000040100401";
"802008000000000000000000000000000000000000200003FFFFFFFFFC000040100401";
"802008000000000000000000000000000000000000200003FFFFFFFFFC000040100401";
"802008000000000000000000000000000000000000200003FFFFFFFFFC000040100401";
"802008000000000000000000000001C3FFF0000000200003FFFFFFFFFC000040100401";
"802008000000000000000000000001CFFFF0000000200003FFFFFFFFFC000040100401";
"802008000000000000000000000001C3FFF00000002000000000000000000040100401";
"8020080000000000000000000000000000000000002000000000000000000040100401";
"8020080000000000000000000000000000000000002000000000000000000040100401";
"8020080000000000000000000000000000000000002000000000000000000040100401";
"8020080000000000000000000000000000000000002000000000000000000040100401";
"8020080000000000000000000000000000000000002000000000000000000040100401";
"8020080000000000000000000000000000000000002000000000000000000040100401";
"8020080000000000000000000000000000000000002000000000000000000040100401";
"8020080000000000000000000000000000000000002000000000000000000040100401";
"8020080000000000000000000000000000000000002000000000000000000040100401";
"8020080000000000000000000000000000000000002000000000000000000040100401";
"8020080000000000000000000000000000000000002000000000000000000040100401";
"8020080000000000000000000000000000000000002000000000000000000040100401";
"8020080000000000000000000000000000000000002000000000000000000040100401";
"8020080000000000000000000000000000000000002000000000000000000040100401";
"8020080000000000000000000000000000000000002000000000000000000040100401";
"8020080000000000000000000000000000000000002000000000000000000040100401";
"8020080000000000000000000000000000000000002000000000000000000040100401";
"8020080000000000000000000000000000000000002000000000000000000040100401";
"8020080000000000000000000000000000000000003FFFFFFFFFFFFFFFFFFFC0100401";
"8020080000000000000000000000000000000000000000000000000000000000100401";
"8020080000000000000000000000000000000000000000000000000000000000100401";
"8020080000000000000000000000000000000000000000000000000000000000100401";
"8020080000000000000000000000000000000000000000000000000000000000100401";
"8020080000000000000000000000000000000000000000000000000000000000100401";
"8020080000000000000000000000000000000000000000000000000000000000100401";
"8020080000000000000000000000000000000000000000000000000000000000100401";
"8020080000000000000000000000000000000000000000000000000000000000100401";
"8020080000000000000000000000000000000000000000000000000000000000100401";
"80200FFFFFFFFFFFFFFFFFFFFFFFFFFFFFFFFFFFFFFFFFFFFFFFFFFFFFFFFFFFF00401";
"8020000000000000000000000000000000000000000000000000000000000000000401";
"8020000000000000000000000000000000000000000000000000000000000000000401";
"8020000000000000000000000000000000000000000000000000000000000000000401";
"8020000000000000000000000000000000000000000000000000000000000000000401";
"8020000000000000000000000000000000000000000000000000000000000000000401";
"8020000000000000000000000000000000000000000000000000000000000000000401";
"8020000000000000000000000000000000000000000000000000000000000000000401";
"8020000000000000000000000000000000000000000000000000000000000000000401";
"8020000000000000000000000000000000000000000000000000000000000000000401";
"803FFFFFFFFFFFFFFFFFFFFFFFFFFFFFFFFFFFFFFFFFFFFFFFFFFFFFFFFFFFFFFFFC01";
"8000000000000000000000000000000000000000000000000000000000000000000001";
"8000000000000000000000000000000000000000000000000000000000000000000001";
"8000000000000000000000000000000000000000000000000000000000000000000001";
"8000000000000000000000000000000000000000000000000000000000000000000001";
"8000000000000000000000000000000000000000000000000000000000000000000001";
"8000000000000000000000000000000000000000000000000000000000000000000001";
"8000000000000000000000000000000000000000000000000000000000000000000001";
"8000000000000000000000000000000000000000000000000000000000000000000001";
"8000000000000000000000000000000000000000000000000000000000000000000001";
"FFFFFFFFFFFFFFFFFFFFFFFFFFFFFFFFFFFFFFFFFFFFFFFFFFFFFFFFFFFFFFFFFFFFFF"].

(** tests/data/MonochromeFrameBufferTest180.pbm:1-482 *)
Definition picture180 : list string := [
"FFFFFFFFFFFFFFFFFFFFFFFFFFFFFFFFFFFFFFFFFFFFFFFFFFFFFFFFFFFFFFFFFFFFFF";
"8000000000000000000000000000000000000000000000000000000000000000000001";
"8000000000000000000000000000000000000000000000000000000000000000000001";
"8000000000000000000000000000000000000000000000000000000000000000000001";
"8000000000000000000000000000000000000000000000000000000000000000000001";
"8000000000000000000000000000000000000000000000000000000000000000000001";
"8000000000000000000000000000000000000000000000000000000000000000000001";
"8000000000000000000000000000000000000000000000000000000000000000000001";
"8000000000000000000000000000000000000000000000000000000000000000000001";
"8000000000000000000000000000000000000000000000000000000000000000000001";
"803FFFFFFFFFFFFFFFFFFFFFFFFFFFFFFFFFFFFFFFFFFFFFFFFFFFFFFFFFFFFFFFFC01";
"8020000000000000000000000000000000000000000000000000000000000000000401";
"8020000000000000000000000000000000000000000000000000000000000000000401";
"8020000000000000000000000000000000000000000000000000000000000000000401";
"8020000000000000000000000000000000000000000000000000000000000000000401";
"8020000000000000000000000000000000000000000000000000000000000000000401";
"8020000000000000000000000000000000000000000000000000000000000000000401";
"8020000000000000000000000000000000000000000000000000000000000000000401";
"8020000000000000000000000000000000000000000000000000000000000000000401";
"8020000000000000000000000000000000000000000000000000000000000000000401";
"80200FFFFFFFFFFFFFFFFFFFFFFFFFFFFFFFFFFFFFFFFFFFFFFFFFFFFFFFFFFFF00401";
"8020080000000000000000000000000000000000000000000000000000000000100401";
"8020080000000000000000000000000000000000000000000000000000000000100401";
"8020080000000000000000000000000000000000000000000000000000000000100401";
"8020080000000000000000000000000000000000000000000000000000000000100401";
"8020080000000000000000000000000000000000000000000000000000000000100401";
"8020080000000000000000000000000000000000000000000000000000000000100401";
"8020080000000000000000000000000000000000000000000000000000000000100401";
"8020080000000000000000000000000000000000000000000000000000000000100401";
"8020080000000000000000000000000000000000000000000000000000000000100401";
"8020080000000000000000000000000000000000000000000000000000000000100401";
"8020080000000000000000000000000000000000000000000000000000000000100401";
"8020080000000000000000000000000000000000000000000000000000000000100401";
"8020080000000000000000000000000000000000000000000000000000000000100401";
"8020080000000000000000000000000000000000000000000000000000000000100401";
"8020080000000000000000000000000000000000000000000000000000000000100401";
"8020080000000000000000000000000000000000000000000000000000000000100401";
"8020080000000000000000000000000000000000000000000000000000000000100401";
"8020080000000000000000000000000000000000000000000000000000000000100401";
"8020080000000000000000000000000000000000000000000000000000000000100401";
"8020080000000000000000000000000000000000000000000000000000000000100401";
"8020080000000000000000000000000000000000000000000000000000000000100401";
"8020080000000000000000000000000000000000000000000000000000000000100401";
"8020080000000000000000000000000000000000000000000000000000000000100401";
"8020080000000000000000000000000000000000000000000000000000000000100401";
"8020080000000000000000000000000000000000000000000000000000000000100401";
"8020080000000000000000000000000000000000000000000000000000000000100401";
"8020080000000000000000000000000000000000000000000000000000000000100401";
"8020080000000000000000000000000000000000000000000000000000000000100401";
"8020080000000000000000000000000000000000000000000000000000000000100401";
"8020080000000000000000000000000000000000000000000000000000000000100401";
"8020080000000000000000000000000000000000000000000000000000000000100401";
"8020080000000000000000000000000000000000000000000000000000000000100401";
"8020080000000000000000000000000000000000000000000000000000000000100401";
"8020080000000000000000000000000000000000000000000000000000000000100401";
"8020080000000000000000000000000000000000000000000000000000000000100401";
"8020080000000000000000000000000000000000000000000000000000000000100401";
"8020080000000000000000000000000000000000000000000000000000000000100401";
"8020080000000000000000000000000000000000000000000000000000000000100401";
"8020080000000000000000000000000000000000000000000000000000000000100401";
"8020080000000000000000000000000000000000000000000000000000000000100401";
"8020080000000000000000000000000000000000000000000000000000000000100401";
"8020080000000000000000000000000000000000000000000000000000000000100401";
"8020080000000000000000000000000000000000000000000000000000000000100401";
"8020080000000000000000000000000000000000000000000000000000000000100401";
"8020080000000000000000000000000000000000000000000000000000000000100401";
"8020080000000000000000000000000000000000000000000000000000000000100401";
"8020080000000000000000000000000000000000000000000000000000000000100401";
"8020080000000000000000000000000000000000000000000000000000000000100401";
"8020080000000000000000000000000000000000000000000000000000000000100401";
"8020080000000000000000000000000000000000000000000000000000000000100401";
"8020080000000000000000000000000000000000000000000000000000000000100401";
"8020080000000000000000000000000000000000000000000000000000000000100401";
"8020080000000000000000000000000000000000000000000000000000000000100401";
"8020080000000000000000000000000000000000000000000000000000000000100401";
"8020080000000000000000000000000000000000000000000000000000000000100401";
"8020080000000000000000000000000000000000000000000000000000000000100401";
"8020080000000000000000000000000000000000000000000000000000000000100401";
"8020080000000000000000000000000000000000000000000000000000000000100401";
"8020080000000000000000000000000000000000000000000000000000000000100401";
"8020080000000000000000000000000000000000000000000000000000000000100401";
"8020080000000000000000000000000000000000000000000000000000000000100401";
"8020080000000000000000000000000000000000000000000000000000000000100401";
"8020080000000000000000000000000000000000000000000000000000000000100401";
"8020080000000000000000000000000000000000000000000000000000000000100401";
"8020080000000000000000000000000000000000000000000000000000000000100401";
"8020080000000000000000000000000000000000000000000000000000000000100401";
"8020080000000000000000000000000000000000000000000000000000000000100401";
"8020080000000000000000000000000000000000000000000000000000000000100401";
"8020080000000000000000000000000000000000000000000000000000000000100401";
"8020080000000000000000000000000000000000000000000000000000000000100401";
"8020080000000000000000000000000000000000000000000000000000000000100401";
"8020080000000000000000000000000000000000000000000000000000000000100401";
"8020080000000000000000000000000000000000000000000000000000000000100401";
"8020080000000000000000000000000000000000000000000000000000000000100401";
"8020080000000000000000000000000000000000000000000000000000000000100401";
"8020080000000000000000000000000000000000000000000000000000000000100401";
"8020080000000000000000000000000000000000000000000000000000000000100401";
"8020080000000000000000000000000000000000000000000000000000000000100401";
"802008000000000007067E0701C0FC00F00700007E071C0FC07001C000000000100401";
"80200800000000000706FF8701C3FF00F0070001FF871C3FF07001C000000000100401";
"80200800000000000707C3C701C78780F0078003C3C71C78787001C000000000100401";
"8020080000000000000781C701C70380F807800381C71C70387001C000000000100401";
"8020080000000000000781E701CF03C1F80D800781E71CE01C7001C000000000100401";
"8020080000000000020700E701CE01C1D80DC00700E71C001C7001C000000000100401";
"8020080000000000020700E701CE01C1D80DC00700E71C001C7001C000000000100401";
"8020080000000000070700E701CE01C19C1DC00700E71CFFFC7001C000000000100401";
"8020080000000000070700E701CE01C39C18C00700E71CFFFC7001C000000000100401";
"8020080000000000070700E701CE01C38C18E00700E71CE01C7001C000000000100401";
"8020080000000000070781E701CF03C38E18E00781E71CE01C7FFFC000000000100401";
"8020080000000000070781C703C703830E30E00381C71C70387FFFC000000000100401";
"80200800000000000707C3C707C7878706306003C3C71C78787001C000000000100401";
"80200800000000000707FF873DC3FF0706307001FF871C3FF07001C000000000100401";
"802008000000000007073E0739C0FC07073070007E071C0FC07001C000000000100401";
"802008000000000007070007000000070760700000071C00007001C000000000100401";
"8020080000000000070700070000000E0360700000071C00007001C000000000100401";
"8020080000000000070700070000000E0360380000071C00007001C000000000100401";
"8020080000000000070700070000000E03E0380000071C00007001C000000000100401";
"8020080000000000070700070000000E01C0380000071C00007001C000000000100401";
"8020080000000000070700070000001C01C0380000071C00007001C000000000100401";
"8020080000000000000000000000000000000000000000000000000000000000100401";
"8020080000000000000000000000000000000000000000000000000000000000100401";
"8020080000000000000000000000000000000000000000000000000000000000100401";
"8020080000000000000000000000000000000000000000000000000000000000100401";
"8020080000000000000000000000000000000000000000000000000000000000100401";
"8020080000000000000000000000000000000000000000000000000000000000100401";
"8020080000000000000000000000000000000000000000000000000000000000100401";
"8020080000000000000000000000000000000000000000000000000000000000100401";
"8020080000000000000000000000000000000000000000000000000000000000100401";
"8020080000000000000000000000000000000000000000000000000000000000100401";
"8020080000000000000000000000000000000000000000000000000000000000100401";
"8020080000000000000000000000000000000000000000000000000000000000100401";
"8020080000000000000000000000000000000000000000000000000000000000100401";
"8020080000000000000000000000000000000000000000000000000000000000100401";
"8020080000000000000000000000000000000000000000000000000000000000100401";
"8020080000000000000000000000000000000000000000000000000000000000100401";
"8020080000000000000000000000000000000000000000000000000000000000100401";
"8020080000000000000000000000000000000000000000000000000000000000100401";
"8020080000000000000000000000000000000000000000000000000000000000100401";
"8020080000000000000000000000000000000000000000000000000000000000100401";
"80200803FFFFFFFFFFFFFFFFFFFFFFFFFFFFFFFFFFFFFFFFFFFFFFFFFFFFFFC0100401";
"8020080200000000000000000000000000000000000000000000000000000040100401";
"8020080200000000000000000000000000000000000000000000000000000040100401";
"8020080200000000000000000000000000000000000000000000000000000040100401";
"8020080200000000000000000000000000000000000000000000000000000040100401";
"8020080200000000000000000000000000000000000000000000000000000040100401";
"8020080200000000000000000000000000000000000000000000000000000040100401";
"8020080200000000000000000000000000000000000000000000000000000040100401";
"8020080200000000000000000000000000000000000000000000000000000040100401";
"8020080200000000000000000000000000000000000000000000000000000040100401";
"8020080200000000000000000000000000000000000000000000000000000040100401";
"8020080200000000000000000000000000000000000000000000000000000040100401";
"8020080200000000000000000000000000000000000000000000000000000040100401";
"8020080200000000000000000000000000000000000000000000000000000040100401";
"8020080200000000000000000000000000000000000000000000000000000040100401";
"8020080200000000000000000000000000000000000000000000000000000040100401";
"8020080200000000000000000000000000000000000000000000000000000040100401";
"8020080200000000000000000000000000000000000000000000000000000040100401";
"8020080200000000000000000000000000000000000000000000000000000040100401";
"8020080200000000000000000000000000000000000000000000000000000040100401";
"8020080200003FFFFFFFFFFFFFFFFFFFFFFFFFFFFFFFFFFFFFFFFFFFFC000040100401";
"8020080200003FFFFFFFFFFFFFFFFFFFFFFFFFFFFFFFFFFFFFFFFFFFFC000040100401";
"8020080200003FFFFFFFFFFFFFFFFFFFFFFFFFFFFFFFFFFFFFFFFFFFFC000040100401";
"8020080200003FFFFFFFFFFFFFFFFFFFFFFFFFFFFFFFFFFFFFFFFFFFFC000040100401";
"8020080200003FFFFFFFFFFFFFFFFFFFFFFFFFFFFFFFFFFFFFFFFFFFFC000040100401";
"8020080200003FFFFFFFFFFFFFFFFFFFFFFFFFFFFFFFFFFFFFFFFFFFFC000040100401";
"8020080200003FFFFFFFFFFFFFFFFFFFFFFFFFFFFFFFFFFFFFFFFFFFFC000040100401";
"8020080200003FFFFFFFFFFFFFFFFFFFFFFFFFFFFFFFFFFFFFFFFFFFFC000040100401";
"8020080200003FFFFFFFFFFFFFFFFFFFFFFFFFFFFFFFFFFFFFFFFFFFFC000040100401";
"8020080200003FFFFFFFFFFFFFFFFFFFFFFFFFFFFFFFFFFFFFFFFFFFFC000040100401";
"8020080200003FFFFFFFFFFFFFFFFFFFFFFFFFFFFFFFFFFFFFFFFFFFFC000040100401";
"8020080200003FFFFFFFFFFFFFFFFFFFFFFFFFFFFFFFFFFFFFFFFFFFFC000040100401";
"8020080200003FFFFFFFFFFFFFFFFFFFFFFFFFFFFFFFFFFFFFFFFFFFFC000040100401";
"8020080200003FFFFFFFFFFFFFFFFFFFFFFFFFFFFFFFFFFFFFFFFFFFFC000040100401";
"8020080200003FFFFFFFFFFFFFFFFFFFFFFFFFFFFFFFFFFFFFFFFFFFFC000040100401";
"8020080200003FFFFFFFFFFFFFFFFFFFFFFFFFFFFFFFFFFFFFFFFFFFFC000040100401";
"8020080200003FFFFFFFFFFFFFFFFFFFFFFFFFFFFFFFFFFFFFFFFFFFFC000040100401";
"8020080200003FFFFFFFFFFFFFFFFFFFFFFFFFFFFFFFFFFFFFFFFFFFFC000040100401";
"8020080200003FFFFFFFFFFFFFFFFFFFFFFFFFFFFFFFFFFFFFFFFFFFFC000040100401";
"8020080200003FFFFFFFFFFFFFFFFFFFFFFFFFFFFFFFFFFFFFFFFFFFFC000040100401";
"8020080200003FFFFFFFFFFFFFFFFFFFFFFFFFFFFFFFFFFFFFFFFFFFFC000040100401";
"8020080200003FFFFFFFFFFFFFFFFFFFFFFFFFFFFFFFFFFFFFFFFFFFFC000040100401";
"8020080200003FFFFFFFFFFFFFFFFFFFFFFFFFFFFFFFFFFFFFFFFFFFFC000040100401";
"8020080200003FFFFFFFFFFFFFFFFFFFFFFFFFFFFFFFFFFFFFFFFFFFFC000040100401";
"8020080200003FFFFFFFFFFFFFFFFFFFFFFFFFFFFFFFFFFFFFFFFFFFFC000040100401";
"8020080200003FFFFFFFFFFFFFFFFFFFFFFFFFFFFFFFFFFFFFFFFFFFFC000040100401";
"8020080200003FFFFFFFFFFFFFFFFFFFFFFFFFFFFFFFFFFFFFFFFFFFFC000040100401";
"8020080200003FFFFFFFFFFFFFFFFFFFFFFFFFFFFFFFFFFFFFFFFFFFFC000040100401";
"8020080200003FFFFFFFFFFFFFFFFFFFFFFFFFFFFFFFFFFFFFFFFFFFFC000040100401";
"8020080200003FFFFFFFFFFFFFFFFFFFFFFFFFFFFFFFFFFFFFFFFFFFFC000040100401";
"8020080200003FFFFFFFFFFFFFFFFFFFFFFFFFFFFFFFFFFFFFFFFFFFFC000040100401";
"8020080200003FFFFFFFFFFFFFFFFFFFFFFFFFFFFFFFFFFFFFFFFFFFFC000040100401";
"8020080200003FFFFFFFFFFFFFFFFFFFFFFFFFFFFFFFFFFFFFFFFFFFFC000040100401";
"8020080200003FFFFFFFFFFFFFFFFFFFFFFFFFFFFFFFFFFFFFFFFFFFFC000040100401";
"8020080200003FFFFFFFFFFFFFFFFFFFFFFFFFFFFFFFFFFFFFFFFFFFFC000040100401";
"8020080200003FFFFFFFFFFFFFFFFFFFFFFFFFFFFFFFFFFFFFFFFFFFFC000040100401";
"8020080200003FFFFFFFFFFFFFFFFFFFFFFFFFFFFFFFFFFFFFFFFFFFFC000040100401";
"8020080200003FFFFFFFFFFFFFFFFFFFFFFFFFFFFFFFFFFFFFFFFFFFFC000040100401";
"8020080200003FFFFFFFFFFFFFFFFFFFFFFFFFFFFFFFFFFFFFFFFFFFFC000040100401";
"8020080200003FFFFFFFFFFFFFFFFFFFFFFFFFFFFFFFFFFFFFFFFFFFFC000040100401";
"8020080200000000000000000000000000000000000000000000000000000040100401";
"8020080200000000000000000000000000000000000000000000000000000040100401";
"8020080200000000000000000000000000000000000000000000000000000040100401";
"8020080200000000000000000000000000000000000000000000000000000040100401";
"8020080200000000000000000000000000000000000000000000000000000040100401";
"8020080200000000000000000000000000000000000000000000000000000040100401";
"8020080200000000000000000000000000000000000000000000000000000040100401";
"8020080200000000000000000000000000000000000000000000000000000040100401";
"8020080200000000000000000000000000000000000000000000000000000040100401";
"8020080200000000000000000000000000000000000000000000000000000040100401";
"8020080200000000000000000000000000000000000000000000000000000040100401";
"8020080200000000000000000000000000000000000000000000000000000040100401";
"8020080200000000000000000000000000000000000000000000000000000040100401";
"8020080200000000000000000000000000000000000000000000000000000040100401";
"8020080200000000000000000000000000000000000000000000000000000040100401";
"8020080200000000000000000000000000000000000000000000000000000040100401";
"8020080200000000000000000000000000000000000000000000000000000040100401";
"8020080200000000000000000000000000000000000000000000000000000040100401";
"8020080200000000000000000000000000000000000000000000000000000040100401";
"80200803FFFFFFFFFFFFFFFFFFFFFFFFFFFFFFFFFFFFFFFFFFFFFFFFFFFFFFC0100401";
"8020080000000000000000000000000000000000000000000000000000000000100401";
"8020080000000000000000000000000000000000000000000000000000000000100401";
"8020080000000000000000000000000000000000000000000000000000000000100401";
"8020080000000000000000000000000000000000000000000000000000000000100401";
"8020080000000000000000000000000000000000000000000000000000000000100401";
"8020080000000000000000000000000000000000000000000000000000000000100401";
"8020080000000000000000000000000000000000000000000000000000000000100401";
"8020080000000000000000000000000000000000000000000000000000000000100401";
"8020080000000000000000000000000000000000000000000000000000000000100401";
"802008000000000000000000000000007FFFFC00000000000000000000000000100401";
"8020080000000000000000000000007F800003FC000000000000000000000000100401";
"80200800000000000000000000000F8000000003E00000000000000000000000100401";
"8020080000000000000000000000F000000000001E0000000000000000000000100401";
"802008000000000000000000000F00000000000001E000000000000000000000100401";
"8020080000000000000000000070000000000000001C00000000000000000000100401";
"8020080000000000000000000380000000000000000380000000000000000000100401";
"8020080000000000000000000C00000000000000000060000000000000000000100401";
"802008000000000000000000700000000000000000001C000000000000000000100401";
"8020080000000000000000018000000000000000000003000000000000000000100401";
"8020080000000000000000060000000000000000000000C00000000000000000100401";
"8020080000000000000000180000000000000000000000300000000000000000100401";
"80200800000000000000006000000000000000000000000C0000000000000000100401";
"8020080000000000000001800000000000000000000000030000000000000000100401";
"802008000000000000000600000000000000000000000000C000000000000000100401";
"8020080000000000000018000000000000000000000000003000000000000000100401";
"8020080000000000000020000000000000000000000000000800000000000000100401";
"80200800000000000000C0000000000000000000000000000600000000000000100401";
"8020080000000000000300000000000000000000000000000180000000000000100401";
"8020080000000000000400000000000000000000000000000040000000000000100401";
"8020080000000000000800000000000000000000000000000020000000000000100401";
"8020080000000000003000000000000000000000000000000018000000000000100401";
"8020080000000000004000000000000000000000000000000004000000000000100401";
"8020080000000000008000000000000000000000000000000002000000000000100401";
"8020080000000000030000000000000000000000000000000001800000000000100401";
"8020080000000000040000000000000000000000000000000000400000000000100401";
"8020080000000000080000000000000000000000000000000000200000000000100401";
"8020080000000000100000000000000000000000000000000000100000000000100401";
"8020080000000000200000000000000000000000000000000000080000000000100401";
"8020080000000000400000000000000000000000000000000000040000000000100401";
"8020080000000001800000000000000000000000000000000000030000000000100401";
"8020080000000002000000000000000000000000000000000000008000000000100401";
"8020080000000004000000000000000000000000000000000000004000000000100401";
"8020080000000008000000000000000000000000000000000000002000000000100401";
"8020080000000010000000000000000000000000000000000000001000000000100401";
"8020080000000010000000000000000000000000000000000000001000000000100401";
"8020080000000020000000000000000000000000000000000000000800000000100401";
"8020080000000040000000000000000000000000000000000000000400000000100401";
"8020080000000080000000000000000000000000000000000000000200000000100401";
"8020080000000100000000000000000000000000000000000000000100000000100401";
"8020080000000200000000000000000000000000000000000000000080000000100401";
"8020080000000400000000000000000000000000000000000000000040000000100401";
"8020080000000400000000000000000000000000000000000000000040000000100401";
"8020080000000800000000000000000000000000000000000000000020000000100401";
"8020080000001000000000000000000000000000000000000000000010000000100401";
"8020080000002000000000000000000000000000000000000000000008000000100401";
"8020080000002000000000000000000000000000000000000000000008000000100401";
"8020080000004000000000000000000000000000000000000000000004000000100401";
"8020080000008000000000000000000000000000000000000000000002000000100401";
"8020080000010000000000000000000000000000000000000000000001000000100401";
"8020080000010000000000000000000000000000000000000000000001000000100401";
"8020080000020000000000000000000000000000000000000000000000800000100401";
"8020080000020000000000000000000000000000000000000000000000800000100401";
"8020080000040000000000000000000000000000000000000000000000400000100401";
"80200800000FFFFFFFFFFFFFFFFFFFFFFFFFFFFFFFFFFFFFFFFFFFFFFFE00000100401";
"80200800000C000000000000000000000FFFE000000000000000000000600000100401";
"80200800001400000000000000000001FFFFFF00000000000000000000500000100401";
"8020080000120000000000000000001FFFFFFFF0000000000000000000900000100401";
"802008000022000000000000000000FFFFFFFFFE000000000000000000880000100401";
"802008000021000000000000000003FFFFFFFFFF800000000000000001080000100401";
"80200800004100000000000000000FFFFFFFFFFFE00000000000000001040000100401";
"80200800004080000000000000003FFFFFFFFFFFF80000000000000002040000100401";
"8020080000804000000000000000FFFFFFFFFFFFFE0000000000000004020000100401";
"8020080000804000000000000003FFFFFFFFFFFFFF8000000000000004020000100401";
"8020080001002000000000000007FFFFFFFFFFFFFFC000000000000008010000100401";
"802008000100200000000000001FFFFFFFFFFFFFFFF000000000000008010000100401";
"802008000200100000000000003FFFFFFFFFFFFFFFF800000000000010008000100401";
"802008000200100000000000007FFFFFFFFFFFFFFFFC00000000000010008000100401";
"80200800040008000000000001FFFFFFFFFFFFFFFFFF00000000000020004000100401";
"80200800040004000000000003FFFFFFFFFFFFFFFFFF80000000000040004000100401";
"80200800040004000000000007FFFFFFFFFFFFFFFFFFC0000000000040004000100401";
"8020080008000200000000000FFFFFFFFFFFFFFFFFFFE0000000000080002000100401";
"8020080008000200000000001FFFFFFFFFFFFFFFFFFFF0000000000080002000100401";
"8020080010000100000000003FFFFFFFFFFFFFFFFFFFF8000000000100001000100401";
"8020080010000100000000007FFFFFFFFFFFFFFFFFFFFC000000000100001000100401";
"8020080010000080000000007FFFFFFFFFFFFFFFFFFFFC000000000200001000100401";
"802008002000004000000000FFFFFFFFFFFFFFFFFFFFFE000000000400000800100401";
"802008002000004000000001FFFFFFFFFFFFFFFFFFFFFF000000000400000800100401";
"802008002000002000000003FFFFFFFFFFFFFFFFFFFFFF800000000800000800100401";
"802008004000002000000003FFFFFFFFFFFFFFFFFFFFFF800000000800000400100401";
"802008004000001000000007FFFFFFFFFFFFFFFFFFFFFFC00000001000000400100401";
"80200800400000100000000FFFFFFFFFFFFFFFFFFFFFFFE00000001000000400100401";
"80200800400000080000000FFFFFFFFFFFFFFFFFFFFFFFE00000002000000400100401";
"80200800800000040000001FFFFFFFFFFFFFFFFFFFFFFFF00000004000000200100401";
"80200800800000040000001FFFFFFFFFFFFFFFFFFFFFFFF00000004000000200100401";
"80200800800000020000003FFFFFFFFFFFFFFFFFFFFFFFF80000008000000200100401";
"80200800800000020000003FFFFFFFFFFFFFFFFFFFFFFFF80000008000000200100401";
"80200801000000010000007FFFFFFFFFFFFFFFFFFFFFFFFC0000010000000100100401";
"80200801000000010000007FFFFFFFFFFFFFFFFFFFFFFFFC0000010000000100100401";
"8020080100000000800000FFFFFFFFFFFFFFFFFFFFFFFFFE0000020000000100100401";
"8020080100000000400000FFFFFFFFFFFFFFFFFFFFFFFFFE0000040000000100100401";
"8020080100000000400001FFFFFFFFFFFFFFFFFFFFFFFFFF0000040000000100100401";
"8020080200000000200001FFFFFFFFFFFFFFFFFFFFFFFFFF0000080000000080100401";
"8020080200000000200001FFFFFFFFFFFFFFFFFFFFFFFFFF0000080000000080100401";
"8020080200000000100003FFFFFFFFFFFFFFFFFFFFFFFFFF8000100000000080100401";
"8020080200000000100003FFFFFFFFFFFFFFFFFFFFFFFFFF8000100000000080100401";
"8020080200000000080003FFFFFFFFFFFFFFFFFFFFFFFFFF8000200000000080100401";
"8020080200000000040003FFFFFFFFFFFFFFFFFFFFFFFFFF8000400000000080100401";
"8020080200000000040007FFFFFFFFFFFFFFFFFFFFFFFFFFC000400000000080100401";
"8020080200000000020007FFFFFFFFFFFFFFFFFFFFFFFFFFC000800000000080100401";
"8020080400000000020007FFFFFFFFFFFFFFFFFFFFFFFFFFC000800000000040100401";
"8020080400000000010007FFFFFFFFFFFFFFFFFFFFFFFFFFC001000000000040100401";
"8020080400000000010007FFFFFFFFFFFFFFFFFFFFFFFFFFC001000000000040100401";
"802008040000000000800FFFFFFFFFFFFFFFFFFFFFFFFFFFE002000000000040100401";
"802008040000000000400FFFFFFFFFFFFFFFFFFFFFFFFFFFE004000000000040100401";
"802008040000000000400FFFFFFFFFFFFFFFFFFFFFFFFFFFE004000000000040100401";
"802008040000000000200FFFFFFFFFFFFFFFFFFFFFFFFFFFE008000000000040100401";
"802008040000000000200FFFFFFFFFFFFFFFFFFFFFFFFFFFE008000000000040100401";
"802008040000000000100FFFFFFFFFFFFFFFFFFFFFFFFFFFE010000000000040100401";
"802008040000000000100FFFFFFFFFFFFFFFFFFFFFFFFFFFE010000000000040100401";
"802008040000000000080FFFFFFFFFFFFFFFFFFFFFFFFFFFE020000000000040100401";
"802008040000000000040FFFFFFFFFFFFFFFFFFFFFFFFFFFE040000000000040100401";
"802008040000000000040FFFFFFFFFFFFFFFFFFFFFFFFFFFE040000000000040100401";
"802008040000000000020FFFFFFFFFFFFFFFFFFFFFFFFFFFE080000000000040100401";
"802008040000000000020FFFFFFFFFFFFFFFFFFFFFFFFFFFE080000000000040100401";
"802008040000000000010FFFFFFFFFFFFFFFFFFFFFFFFFFFE100000000000040100401";
"802008040000000000010FFFFFFFFFFFFFFFFFFFFFFFFFFFE100000000000040100401";
"802008040000000000008FFFFFFFFFFFFFFFFFFFFFFFFFFFE200000000000040100401";
"8020080400000000000047FFFFFFFFFFFFFFFFFFFFFFFFFFC400000000000040100401";
"8020080400000000000047FFFFFFFFFFFFFFFFFFFFFFFFFFC400000000000040100401";
"8020080400000000000027FFFFFFFFFFFFFFFFFFFFFFFFFFC800000000000040100401";
"8020080200000000000027FFFFFFFFFFFFFFFFFFFFFFFFFFC800000000000080100401";
"8020080200000000000017FFFFFFFFFFFFFFFFFFFFFFFFFFD000000000000080100401";
"8020080200000000000013FFFFFFFFFFFFFFFFFFFFFFFFFF9000000000000080100401";
"802008020000000000000BFFFFFFFFFFFFFFFFFFFFFFFFFFA000000000000080100401";
"8020080200000000000007FFFFFFFFFFFFFFFFFFFFFFFFFFC000000000000080100401";
"8020080200000000000007FFFFFFFFFFFFFFFFFFFFFFFFFFC000000000000080100401";
"8020080200000000000003FFFFFFFFFFFFFFFFFFFFFFFFFF8000000000000080100401";
"8020080200000000000003FFFFFFFFFFFFFFFFFFFFFFFFFF8000000000000080100401";
"8020080100000000000001FFFFFFFFFFFFFFFFFFFFFFFFFF0000000000000100100401";
"8020080100000000000001FFFFFFFFFFFFFFFFFFFFFFFFFF0000000000000100100401";
"8020080100000000000000FFFFFFFFFFFFFFFFFFFFFFFFFE0000000000000100100401";
"80200801000000000000007FFFFFFFFFFFFFFFFFFFFFFFFC0000000000000100100401";
"80200801000000000000007FFFFFFFFFFFFFFFFFFFFFFFFC0000000000000100100401";
"80200800800000000000003FFFFFFFFFFFFFFFFFFFFFFFF80000000000000200100401";
"80200800800000000000003FFFFFFFFFFFFFFFFFFFFFFFF80000000000000200100401";
"80200800800000000000001FFFFFFFFFFFFFFFFFFFFFFFF00000000000000200100401";
"80200800800000000000001FFFFFFFFFFFFFFFFFFFFFFFF00000000000000200100401";
"80200800400000000000000FFFFFFFFFFFFFFFFFFFFFFFE00000000000000400100401";
"80200800400000000000000FFFFFFFFFFFFFFFFFFFFFFFE00000000000000400100401";
"802008004000000000000007FFFFFFFFFFFFFFFFFFFFFFC00000000000000400100401";
"802008004000000000000003FFFFFFFFFFFFFFFFFFFFFF800000000000000400100401";
"802008002000000000000003FFFFFFFFFFFFFFFFFFFFFF800000000000000800100401";
"802008002000000000000001FFFFFFFFFFFFFFFFFFFFFF000000000000000800100401";
"802008002000000000000000FFFFFFFFFFFFFFFFFFFFFE000000000000000800100401";
"802008001000000000000000FFFFFFFFFFFFFFFFFFFFFE000000000000001000100401";
"8020080010000000000000007FFFFFFFFFFFFFFFFFFFFC000000000000001000100401";
"8020080010000000000000007FFFFFFFFFFFFFFFFFFFFC000000000000001000100401";
"8020080008000000000000003FFFFFFFFFFFFFFFFFFFF8000000000000002000100401";
"8020080008000000000000002FFFFFFFFFFFFFFFFFFFE8000000000000002000100401";
"80200800040000000000000017FFFFFFFFFFFFFFFFFFD0000000000000004000100401";
"8020080004000000000000000BFFFFFFFFFFFFFFFFFFA0000000000000004000100401";
"80200800040000000000000009FFFFFFFFFFFFFFFFFF20000000000000004000100401";
"802008000200000000000000047FFFFFFFFFFFFFFFFC40000000000000008000100401";
"802008000200000000000000043FFFFFFFFFFFFFFFF840000000000000008000100401";
"802008000100000000000000021FFFFFFFFFFFFFFFF080000000000000010000100401";
"8020080001000000000000000207FFFFFFFFFFFFFFC080000000000000010000100401";
"8020080000800000000000000103FFFFFFFFFFFFFF8100000000000000020000100401";
"8020080000800000000000000080FFFFFFFFFFFFFE0200000000000000020000100401";
"80200800004000000000000000803FFFFFFFFFFFF80200000000000000040000100401";
"80200800004000000000000000400FFFFFFFFFFFE00400000000000000040000100401";
"802008000020000000000000004003FFFFFFFFFF800400000000000000080000100401";
"802008000020000000000000002000FFFFFFFFFE000800000000000000080000100401";
"8020080000100000000000000020001FFFFFFFF0000800000000000000100000100401";
"80200800001000000000000000100001FFFFFF00001000000000000000100000100401";
"802008000008000000000000000800000FFFE000002000000000000000200000100401";
"8020080000080000000000000008000000000000002000000000000000200000100401";
"8020080000040000000000000004000000000000004000000000000000400000100401";
"8020080000020000000000000004000000000000004000000000000000800000100401";
"8020080000020000000000000002000000000000008000000000000000800000100401";
"8020080000010000000000000002000000000000008000000000000001000000100401";
"8020080000010000000000000001000000000000010000000000000001000000100401";
"8020080000008000000000000000800000000000020000000000000002000000100401";
"8020080000004000000000000000800000000000020000000000000004000000100401";
"8020080000002000000000000000400000000000040000000000000008000000100401";
"8020080000002000000000000000400000000000040000000000000008000000100401";
"8020080000001000000000000000200000000000080000000000000010000000100401";
"8020080000000800000000000000200000000000080000000000000020000000100401";
"8020080000000400000000000000100000000000100000000000000040000000100401";
"8020080000000400000000000000080000000000200000000000000040000000100401";
"8020080000000200000000000000080000000000200000000000000080000000100401";
"8020080000000100000000000000040000000000400000000000000100000000100401";
"8020080000000080000000000000040000000000400000000000000200000000100401";
"8020080000000040000000000000020000000000800000000000000400000000100401";
"8020080000000020000000000000020000000000800000000000000800000000100401";
"8020080000000010000000000000010000000001000000000000001000000000100401";
"8020080000000010000000000000008000000002000000000000001000000000100401";
"8020080000000008000000000000008000000002000000000000002000000000100401";
"8020080000000004000000000000004000000004000000000000004000000000100401";
"8020080000000002000000000000004000000004000000000000008000000000100401";
"8020080000000001800000000000002000000008000000000000030000000000100401";
"8020080000000000400000000000002000000008000000000000040000000000100401";
"8020080000000000200000000000001000000010000000000000080000000000100401";
"8020080000000000100000000000000800000020000000000000100000000000100401";
"8020080000000000080000000000000800000020000000000000200000000000100401";
"8020080000000000040000000000000400000040000000000000400000000000100401";
"8020080000000000030000000000000400000040000000000001800000000000100401";
"8020080000000000008000000000000200000080000000000002000000000000100401";
"8020080000000000004000000000000200000080000000000004000000000000100401";
"8020080000000000003000000000000100000100000000000018000000000000100401";
"8020080000000000000800000000000080000200000000000020000000000000100401";
"8020080000000000000400000000000080000200000000000040000000000000100401";
"8020080000000000000300000000000040000400000000000180000000000000100401";
"80200800000000000000C0000000000040000400000000000600000000000000100401";
"8020080000000000000020000000000020000800000000000800000000000000100401";
"8020080000000000000018000000000020000800000000003000000000000000100401";
"802008000000000000000600000000001000100000000000C000000000000000100401";
"8020080000000000000001800000000008002000000000030000000000000000100401";
"80200800000000000000006000000000080020000000000C0000000000000000100401";
"8020080000000000000000180000000004004000000000300000000000000000100401";
"8020080000000000000000060000000004004000000000C00000000000000000100401";
"8020080000000000000000018000000002008000000003000000000000000000100401";
"802008000000000000000000700000000200800000001C000000000000000000100401";
"8020080000000000000000000C00000001010000000060000000000000000000100401";
"8020080000000000000000000380000000820000000380000000000000000000100401";
"8020080000000000000000000070000000820000001C00000000000000000000100401";
"802008000000000000000000000F00000044000001E000000000000000000000100401";
"8020080000000000000000000000F000004400001E0000000000000000000000100401";
"80200800000000000000000000000F8000280003E00000000000000000000000100401";
"8020080000000000000000000000007F802803FC000000000000000000000000100401";
"802008000000000000000000000000007FFFFC00000000000000000000000000100401";
"8020080000000000000000000000000000000000000000000000000000000000100401";
"8020080000000000000000000000000000000000000000000000000000000000100401";
"8020080000000000000000000000000000000000000000000000000000000000100401";
"8020080000000000000000000000000000000000000000000000000000000000100401";
"8020080000000000000000000000000000000000000000000000000000000000100401";
"8020080000000000000000000000000000000000000000000000000000000000100401";
"8020080000000000000000000000000000000000000000000000000000000000100401";
"8020080000000000000000000000000000000000000000000000000000000000100401";
"8020080000000000000000000000000000000000000000000000000000000000100401";
"80200FFFFFFFFFFFFFFFFFFFFFFFFFFFFFFFFFFFFFFFFFFFFFFFFFFFFFFFFFFFF00401";
"8020000000000000000000000000000000000000000000000000000000000000000401";
"8020000000000000000000000000000000000000000000000000000000000000000401";
"8020000000000000000000000000000000000000000000000000000000000000000401";
"8020000000000000000000000000000000000000000000000000000000000000000401";
"8020000000000000000000000000000000000000000000000000000000000000000401";
"8020000000000000000000000000000000000000000000000000000000000000000401";
"8020000000000000000000000000000000000000000000000000000000000000000401";
"8020000000000000000000000000000000000000000000000000000000000000000401";
"8020000000000000000000000000000000000000000000000000000000000000000401";
"803FFFFFFFFFFFFFFFFFFFFFFFFFFFFFFFFFFFFFFFFFFFFFFFFFFFFFFFFFFFFFFFFC01";
"8000000000000000000000000000000000000000000000000000000000000000000001";
"8000000000000000000000000000000000000000000000000000000000000000000001";
"8000000000000000000000000000000000000000000000000000000000000000000001";
"8000000000000000000000000000000000000000000000000000000000000000000001";
"8000000000000000000000000000000000000000000000000000000000000000000001";
"8000000000000000000000000000000000000000000000000000000000000000000001";
"8000000000000000000000000000000000000000000000000000000000000000000001";
"8000000000000000000000000000000000000000000000000000000000000000000001";
"8000000000000000000000000000000000000000000000000000000000000000000001";
"FFFFFFFFFFFFFFFFFFFFFFFFFFFFFFFFFFFFFFFFFFFFFFFFFFFFFFFFFFFFFFFFFFFFFF"].

(** tests/data/MonochromeFrameBufferTest270.pbm:1-482 *)
Definition picture270 : list string := [
"FFFFFFFFFFFFFFFFFFFFFFFFFFFFFFFFFFFFFFFFFFFFFFFFFFFFFFFFFFFFFFFFFFFFFF";
"8000000000000000000000000000000000000000000000000000000000000000000001";
"8000000000000000000000000000000000000000000000000000000000000000000001";
"8000000000000000000000000000000000000000000000000000000000000000000001";
"8000000000000000000000000000000000000000000000000000000000000000000001";
"8000000000000000000000000000000000000000000000000000000000000000000001";
"8000000000000000000000000000000000000000000000000000000000000000000001";
"8000000000000000000000000000000000000000000000000000000000000000000001";
"8000000000000000000000000000000000000000000000000000000000000000000001";
"8000000000000000000000000000000000000000000000000000000000000000000001";
"803FFFFFFFFFFFFFFFFFFFFFFFFFFFFFFFFFFFFFFFFFFFFFFFFFFFFFFFFFFFFFFFFC01";
"8020000000000000000000000000000000000000000000000000000000000000000401";
"8020000000000000000000000000000000000000000000000000000000000000000401";
"8020000000000000000000000000000000000000000000000000000000000000000401";
"8020000000000000000000000000000000000000000000000000000000000000000401";
"8020000000000000000000000000000000000000000000000000000000000000000401";
"8020000000000000000000000000000000000000000000000000000000000000000401";
"8020000000000000000000000000000000000000000000000000000000000000000401";
"8020000000000000000000000000000000000000000000000000000000000000000401";
"8020000000000000000000000000000000000000000000000000000000000000000401";
"80200FFFFFFFFFFFFFFFFFFFFFFFFFFFFFFFFFFFFFFFFFFFFFFFFFFFFFFFFFFFF00401";
"8020080000000000000000000000000000000000000000000000000000000000100401";
"8020080000000000000000000000000000000000000000000000000000000000100401";
"8020080000000000000000000000000000000000000000000000000000000000100401";
"8020080000000000000000000000000000000000000000000000000000000000100401";
"8020080000000000000000000000000000000000000000000000000000000000100401";
"8020080000000000000000000000000000000000000000000000000000000000100401";
"8020080000000000000000000000000000000000000000000000000000000000100401";
"8020080000000000000000000000000000000000000000000000000000000000100401";
"8020080000000000000000000000000000000000000000000000000000000000100401";
"80200803FFFFFFFFFFFFFFFFFFFC000000000000000000000000000000000000100401";
"8020080200000000000000000004000000000000000000000000000000000000100401";
"8020080200000000000000000004000000000000000000000000000000000000100401";
"8020080200000000000000000004000000000000000000000000000000000000100401";
"8020080200000000000000000004000000000000000000000000000000000000100401";
"8020080200000000000000000004000000000000000000000000000000000000100401";
"8020080200000000000000000004000000000000000000000000000000000000100401";
"8020080200000000000000000004000000000000000000000000000000000000100401";
"8020080200000000000000000004000000000000000000000000000000000000100401";
"8020080200000000000000000004000000000000000000000000000000000000100401";
"8020080200000000000000000004000000000000000000000000000000000000100401";
"8020080200000000000000000004000000000000000000000000000000000000100401";
"8020080200000000000000000004000000000000000000000000000000000000100401";
"8020080200000000000000000004000000000000000000000000000000000000100401";
"8020080200000000000000000004000000000000000000000000000000000000100401";
"8020080200000000000000000004000000000000000000000000000000000000100401";
"8020080200000000000000000004000000000000000000000000000000000000100401";
"8020080200000000000000000004000000000000000000000000000000000000100401";
"8020080200000000000000000004000000000000000000000000000000000000100401";
"80200802000000000000000000040000000FFFC3800000000000000000000000100401";
"8020080200003FFFFFFFFFC000040000000FFFF3800000000000000000000000100401";
"8020080200003FFFFFFFFFC000040000000FFFC3800000000000000000000000100401";
"8020080200003FFFFFFFFFC00004000000000000000000000000000000000000100401";
"8020080200003FFFFFFFFFC00004000000000000000000000000000000000000100401";
"8020080200003FFFFFFFFFC00004000000000000000000000000000000000000100401";
"8020080200003FFFFFFFFFC00004000000000000000000000000000000000000100401";
"8020080200003FFFFFFFFFC00004000000000000000000000000000000000000100401";
"8020080200003FFFFFFFFFC000040000000FFFFF800000000000000000000000100401";
"8020080200003FFFFFFFFFC000040000000FFFFF800000000000000000000000100401";
"8020080200003FFFFFFFFFC000040000000FFFFE000000000000000000000000100401";
"8020080200003FFFFFFFFFC00004000000001E0F000000000000000000000000100401";
"8020080200003FFFFFFFFFC00004000000001803800000000000000000000000100401";
"8020080200003FFFFFFFFFC00004000000003001800000000000000000000000100401";
"8020080200003FFFFFFFFFC00004000000003001800000000000000000000000100401";
"8020080200003FFFFFFFFFC00004000000003001800000000000000000000000100401";
"8020080200003FFFFFFFFFC00004000000003001800000000000000000000000100401";
"8020080200003FFFFFFFFFC00004000000003803800000000000000000000000100401";
"8020080200003FFFFFFFFFC00004000000001E0F000000000000000000000000100401";
"8020080200003FFFFFFFFFC00004000000001FFF000000000000000000000000100401";
"8020080200003FFFFFFFFFC00004000000000FFE000000000000000000000000100401";
"8020080200003FFFFFFFFFC000040000000003F8000000000000000000000000100401";
"8020080200003FFFFFFFFFC00004000000000000000000000000000000000000100401";
"8020080200003FFFFFFFFFC00004000000000000000000000000000000000000100401";
"8020080200003FFFFFFFFFC000040000000FFFFF800000000000000000000000100401";
"8020080200003FFFFFFFFFC000040000000FFFFF800000000000000000000000100401";
"8020080200003FFFFFFFFFC000040000000FFFFF800000000000000000000000100401";
"8020080200003FFFFFFFFFC00004000000000000000000000000000000000000100401";
"8020080200003FFFFFFFFFC00004000000000000000000000000000000000000100401";
"8020080200003FFFFFFFFFC00004000000003000000000000000000000000000100401";
"8020080200003FFFFFFFFFC00004000000003000000000000000000000000000100401";
"8020080200003FFFFFFFFFC00004000000003000000000000000000000000000100401";
"8020080200003FFFFFFFFFC00004000000001800000000000000000000000000100401";
"8020080200003FFFFFFFFFC00004000000000C00000000000000000000000000100401";
"8020080200003FFFFFFFFFC00004000000003FFF800000000000000000000000100401";
"8020080200003FFFFFFFFFC00004000000003FFF800000000000000000000000100401";
"8020080200003FFFFFFFFFC00004000000003FFF800000000000000000000000100401";
"8020080200003FFFFFFFFFC00004000000000000000000000000000000000000100401";
"8020080200003FFFFFFFFFC00004000000000000000000000000000000000000100401";
"8020080200003FFFFFFFFFC000040000000003F8000000000000000000000000100401";
"8020080200003FFFFFFFFFC00004000000000FFE000000000000000000000000100401";
"8020080200003FFFFFFFFFC00004000000001FFF000000000000000000000000100401";
"8020080200003FFFFFFFFFC00004000000001E0F000000000000000000000000100401";
"8020080200003FFFFFFFFFC00004000000003803800000000000000000000000100401";
"8020080200003FFFFFFFFFC00004000000003001800000000000000000000000100401";
"8020080200003FFFFFFFFFC00004000000003001800000000000000000000000100401";
"8020080200003FFFFFFFFFC00004000000003001800000000000000000000000100401";
"8020080200003FFFFFFFFFC00004000000003001800000000000000000000000100401";
"8020080200003FFFFFFFFFC00004000000003803800000000000000000000000100401";
"8020080200003FFFFFFFFFC00004000000001E0F000000000000000000000000100401";
"8020080200003FFFFFFFFFC00004000000001FFF800000000000000000000000100401";
"8020080200003FFFFFFFFFC00004000000000FFE800000000000000000000000100401";
"8020080200003FFFFFFFFFC000040000000003F8800000000000000000000000100401";
"8020080200003FFFFFFFFFC00004000000000000800000000000000000000000100401";
"8020080200003FFFFFFFFFC00004000000080000800000000000000000000000100401";
"8020080200003FFFFFFFFFC000040000000F8000800000000000000000000000100401";
"8020080200003FFFFFFFFFC000040000000FF800800000000000000000000000100401";
"8020080200003FFFFFFFFFC0000400000007FF80800000000000000000000000100401";
"8020080200003FFFFFFFFFC00004000000007FF8800000000000000000000000100401";
"8020080200003FFFFFFFFFC000040000000003FF800000000000000000000000100401";
"8020080200003FFFFFFFFFC0000400000000003F800000000000000000000000100401";
"8020080200003FFFFFFFFFC0000400000000000F800000000000000000000000100401";
"8020080200003FFFFFFFFFC000040000000000FF800000000000000000000000100401";
"8020080200003FFFFFFFFFC000040000000007FC800000000000000000000000100401";
"8020080200003FFFFFFFFFC00004000000007FC0800000000000000000000000100401";
"8020080200003FFFFFFFFFC0000400000003FE00800000000000000000000000100401";
"8020080200003FFFFFFFFFC000040000000FE000800000000000000000000000100401";
"8020080200003FFFFFFFFFC000040000000E0000800000000000000000000000100401";
"8020080200003FFFFFFFFFC000040000000FC000800000000000000000000000100401";
"8020080200003FFFFFFFFFC0000400000003FC00800000000000000000000000100401";
"8020080200003FFFFFFFFFC00004000000003FC0800000000000000000000000100401";
"8020080200003FFFFFFFFFC000040000000003F8800000000000000000000000100401";
"8020080200003FFFFFFFFFC0000400000000007F800000000000000000000000100401";
"8020080200003FFFFFFFFFC00004000000000007800000000000000000000000100401";
"8020080200003FFFFFFFFFC0000400000000007F800000000000000000000000100401";
"8020080200003FFFFFFFFFC000040000000007FE800000000000000000000000100401";
"8020080200003FFFFFFFFFC0000400000000FFF0800000000000000000000000100401";
"8020080200003FFFFFFFFFC000040000000FFF00800000000000000000000000100401";
"8020080200003FFFFFFFFFC000040000000FF000800000000000000000000000100401";
"8020080200003FFFFFFFFFC000040000000F0000800000000000000000000000100401";
"8020080200003FFFFFFFFFC00004000000000000800000000000000000000000100401";
"8020080200003FFFFFFFFFC00004000000000000800000000000000000000000100401";
"8020080200003FFFFFFFFFC00004000000000000800000000000000000000000100401";
"8020080200003FFFFFFFFFC00004000000000000800000000000000000000000100401";
"8020080200003FFFFFFFFFC00004000000000000800000000000000000000000100401";
"8020080200003FFFFFFFFFC00004000000000000800000000000000000000000100401";
"8020080200003FFFFFFFFFC00004000000000000800000000000000000000000100401";
"8020080200003FFFFFFFFFC00004000000000000800000000000000000000000100401";
"8020080200003FFFFFFFFFC000040000000003F8800000000000000000000000100401";
"8020080200003FFFFFFFFFC00004000000000FFE800000000000000000000000100401";
"8020080200003FFFFFFFFFC00004000000001FFF800000000000000000000000100401";
"8020080200003FFFFFFFFFC00004000000001E0F800000000000000000000000100401";
"8020080200003FFFFFFFFFC00004000000003803800000000000000000000000100401";
"8020080200003FFFFFFFFFC00004000000003001800000000000000000000000100401";
"8020080200003FFFFFFFFFC00004000000003001800000000000000000000000100401";
"8020080200003FFFFFFFFFC00004000000003001800000000000000000000000100401";
"8020080200003FFFFFFFFFC00004000000003001800000000000000000000000100401";
"8020080200003FFFFFFFFFC00004000000003803800000000000000000000000100401";
"8020080200003FFFFFFFFFC00004000000001E0F800000000000000000000000100401";
"8020080200003FFFFFFFFFC00004000000001FFF800000000000000000000000100401";
"8020080200003FFFFFFFFFC00004000000000FFE800000000000000000000000100401";
"8020080200003FFFFFFFFFC000040000000003F8800000000000000000000000100401";
"8020080200003FFFFFFFFFC00004000000000000800000000000000000000000100401";
"8020080200003FFFFFFFFFC00004000000000000800000000000000000000000100401";
"8020080200003FFFFFFFFFC000040000000FFFFF800000000000000000000000100401";
"8020080200003FFFFFFFFFC000040000000FFFFF800000000000000000000000100401";
"8020080200003FFFFFFFFFC000040000000FFFFF800000000000000000000000100401";
"8020080200003FFFFFFFFFC00004000000000000800000000000000000000000100401";
"8020080200003FFFFFFFFFC00004000000000000800000000000000000000000100401";
"8020080200003FFFFFFFFFC00004000000000000800000000000000000000000100401";
"8020080200003FFFFFFFFFC000040000000FFFFF800000000000000000000000100401";
"8020080200003FFFFFFFFFC000040000000FFFFF800000000000000000000000100401";
"8020080200003FFFFFFFFFC000040000000FFFFF800000000000000000000000100401";
"8020080200003FFFFFFFFFC00004000000000000800000000000000000000000100401";
"8020080200003FFFFFFFFFC00004000000000000800000000000000000000000100401";
"8020080200003FFFFFFFFFC000040000000003C8800000000000000000000000100401";
"8020080200003FFFFFFFFFC00004000000000FCE800000000000000000000000100401";
"8020080200003FFFFFFFFFC00004000000001FCF800000000000000000000000100401";
"8020080200003FFFFFFFFFC00004000000001CC7800000000000000000000000100401";
"8020080200003FFFFFFFFFC000040000000038C3800000000000000000000000100401";
"8020080200003FFFFFFFFFC000040000000030C1800000000000000000000000100401";
"8020080200003FFFFFFFFFC000040000000030C1800000000000000000000000100401";
"8020080200003FFFFFFFFFC000040000000030C1800000000000000000000000100401";
"8020080200003FFFFFFFFFC000040000000030C1800000000000000000000000100401";
"8020080200003FFFFFFFFFC000040000000038C3800000000000000000000000100401";
"8020080200003FFFFFFFFFC00004000000001CC7800000000000000000000000100401";
"8020080200003FFFFFFFFFC00004000000001FFF800000000000000000000000100401";
"8020080200003FFFFFFFFFC00004000000000FFE800000000000000000000000100401";
"8020080200003FFFFFFFFFC000040000000003F8800000000000000000000000100401";
"8020080200003FFFFFFFFFC00004000000000000800000000000000000000000100401";
"8020080200003FFFFFFFFFC00004000000000000800000000000000000000000100401";
"8020080200003FFFFFFFFFC00004000000000000800000000000000000000000100401";
"8020080200003FFFFFFFFFC000040000000FFFFF800000000000000000000000100401";
"8020080200003FFFFFFFFFC000040000000FFFFF800000000000000000000000100401";
"8020080200003FFFFFFFFFC000040000000FFFFF800000000000000000000000100401";
"8020080200003FFFFFFFFFC00004000000000600800000000000000000000000100401";
"8020080200003FFFFFFFFFC00004000000000600800000000000000000000000100401";
"8020080200003FFFFFFFFFC00004000000000600800000000000000000000000100401";
"8020080200003FFFFFFFFFC00004000000000600800000000000000000000000100401";
"8020080200003FFFFFFFFFC00004000000000600800000000000000000000000100401";
"8020080200003FFFFFFFFFC00004000000000600800000000000000000000000100401";
"8020080200003FFFFFFFFFC00004000000000600800000000000000000000000100401";
"8020080200003FFFFFFFFFC00004000000000600800000000000000000000000100401";
"8020080200003FFFFFFFFFC00004000000000600800000000000000000000000100401";
"8020080200003FFFFFFFFFC00004000000000600800000000000000000000000100401";
"8020080200003FFFFFFFFFC00004000000000600800000000000000000000000100401";
"8020080200003FFFFFFFFFC000040000000FFFFF800000000000000000000000100401";
"8020080200003FFFFFFFFFC000040000000FFFFF800000000000000000000000100401";
"8020080200003FFFFFFFFFC000040000000FFFFF800000000000000000000000100401";
"8020080200003FFFFFFFFFC00004000000000000800000000000000000000000100401";
"8020080200003FFFFFFFFFC00004000000000000800000000000000000000000100401";
"8020080200000000000000000004000000000000000000000000000000000000100401";
"8020080200000000000000000004000000000000000000000000000000000000100401";
"8020080200000000000000000004000000000000000000000000000000000000100401";
"8020080200000000000000000004000000000000000000000000000000000000100401";
"8020080200000000000000000004000000000000000000000000000000000000100401";
"8020080200000000000000000004000000000000000000000000000000000000100401";
"8020080200000000000000000004000000000000000000000000000000000000100401";
"8020080200000000000000000004000000000000000000000000000000000000100401";
"8020080200000000000000000004000000000000000000000000000000000000100401";
"8020080200000000000000000004000000000000000000000000000000000000100401";
"8020080200000000000000000004000000000000000000000000000000000000100401";
"8020080200000000000000000004000000000000000000000000000000000000100401";
"8020080200000000000000000004000000000000000000000000000000000000100401";
"8020080200000000000000000004000000000000000000000000000000000000100401";
"8020080200000000000000000004000000000000000000000000000000000000100401";
"8020080200000000000000000004000000000000000000000000000000000000100401";
"8020080200000000000000000004000000000000000000000000000000000000100401";
"8020080200000000000000000004000000000000000000000000000000000000100401";
"8020080200000000000000000004000000000000000000000000000000000000100401";
"80200803FFFFFFFFFFFFFFFFFFFC000000000000000000000000000000000000100401";
"8020080000000000000000000000000000000000000000000000000000000000100401";
"8020080000000000000000000000000000000000000000000000000000000000100401";
"8020080000000000000000000000000000000000000000000000000000000000100401";
"8020080000000000000000000000000000000000000000000000000000000000100401";
"8020080000000000000000000000000000000000000000000000000000000000100401";
"8020080000000000000000000000000000000000000000000000000000000000100401";
"8020080000000000000000000000000000000000000000000000000000000000100401";
"8020080000000000000000000000000000000000000000000000000000000000100401";
"8020080000000000000000000000000000000000000000000000000000000000100401";
"802008000000000000000000000000003FFFFE00000000000000000000000000100401";
"8020080000000000000000000000003FC00001FE000000000000000000000000100401";
"802008000000000000000000000007C000000001F00000000000000000000000100401";
"80200800000000000000000000007800000000000F0000000000000000000000100401";
"802008000000000000000000000780000000000000F000000000000000000000100401";
"8020080000000000000000000038000000000000000E00000000000000000000100401";
"80200800000000000000000001C00000000000000001C0000000000000000000100401";
"8020080000000000000000000600000000000000000030000000000000000000100401";
"802008000000000000000000380000000000000000000E000000000000000000100401";
"802008000000000000000000C000000000000000000001800000000000000000100401";
"8020080000000000000000030000000000000000000000600000000000000000100401";
"80200800000000000000000C0000000000000000000000180000000000000000100401";
"8020080000000000000000300000000000000000000000060000000000000000100401";
"8020080000000000000000C00000000000000000000000018000000000000000100401";
"8020080000000000000003000000000000000000000000006000000000000000100401";
"802008000000000000000C000000000000000000000000001800000000000000100401";
"8020080000000000000010000000000000000000000000003C00000000000000100401";
"802008000000000000006000000000000000000000000000CB00000000000000100401";
"80200800000000000001800000000000000000000000000308C0000000000000100401";
"8020080000000000000200000000000000000000000000040820000000000000100401";
"8020080000000000000400000000000000000000000000180810000000000000100401";
"802008000000000000180000000000000000000000000060080C000000000000100401";
"8020080000000000002000000000000000000000000001800802000000000000100401";
"8020080000000000004000000000000000000000000002000801000000000000100401";
"802008000000000001800000000000000000000000000C000800C00000000000100401";
"8020080000000000020000000000000000000000000030000800200000000000100401";
"80200800000000000400000000000000000000000000C0000800100000000000100401";
"8020080000000000080000000000000000000000000100000800080000000000100401";
"8020080000000000100000000000000000000000000600000800040000000000100401";
"8020080000000000200000000000000000000000001800000800020000000000100401";
"8020080000000000C00000000000000000000000006000000800018000000000100401";
"8020080000000001000000000000000000000000008000000800004000000000100401";
"8020080000000002000000000000000000000000030000000800002000000000100401";
"80200800000000040000000000000000000000000C0000000800001000000000100401";
"8020080000000008000000000000000000000000300000000800000800000000100401";
"8020080000000008000000000000000000000000400000000800000800000000100401";
"8020080000000010000000000000000000000001800000000800000400000000100401";
"8020080000000020000000000000000000000006000000000800000200000000100401";
"8020080000000040000000000000000000000018000000000800000100000000100401";
"8020080000000080000000000000000000000020000000000800000080000000100401";
"80200800000001000000000000000000000000C0000000000800000040000000100401";
"8020080000000200000000000000000000000300000000000800000020000000100401";
"8020080000000200000000000000000000000C00000000000800000020000000100401";
"8020080000000400000000000000000000001000000000000800000010000000100401";
"8020080000000800000000000000000000006000000000000800000008000000100401";
"8020080000001000000000000000000000018000000000000800000004000000100401";
"8020080000001000000000000000000000060000000000000800000004000000100401";
"8020080000002000000000000000000000080000000000000800000002000000100401";
"8020080000004000000000000000000000300000000000000800000001000000100401";
"8020080000008000000000000000000000C00000000000000800000000800000100401";
"8020080000008000000000000000000003000000000000000800000000800000100401";
"8020080000010000000000000000000004000000000000000800000000400000100401";
"8020080000010000000000000000000018000000000000000800000000400000100401";
"8020080000020000000000000000000060000000000000000800000000200000100401";
"8020080000040000000000000000000180000000000000000800000000100000100401";
"8020080000040000000000000000000207FFF000000000000800000000100000100401";
"8020080000080000000000000000000CFFFFFF80000000000800000000080000100401";
"8020080000080000000000000000003FFFFFFFF8000000000800000000080000100401";
"802008000010000000000000000000FFFFFFFFFF000000000800000000040000100401";
"802008000010000000000000000001FFFFFFFFFFC00000000800000000040000100401";
"802008000020000000000000000007FFFFFFFFFFF00000000800000000020000100401";
"80200800002000000000000000001FFFFFFFFFFFFC0000000800000000020000100401";
"80200800004000000000000000007FFFFFFFFFFFFF0000000800000000010000100401";
"8020080000400000000000000001FFFFFFFFFFFFFFC000000800000000010000100401";
"8020080000800000000000000003FFFFFFFFFFFFFFE000000800000000008000100401";
"802008000080000000000000000FFFFFFFFFFFFFFFF800000800000000008000100401";
"802008000100000000000000001FFFFFFFFFFFFFFFFC00000800000000004000100401";
"802008000100000000000000007FFFFFFFFFFFFFFFFE00000800000000004000100401";
"80200800020000000000000001FFFFFFFFFFFFFFFFFF80000800000000002000100401";
"80200800020000000000000007FFFFFFFFFFFFFFFFFFC0000800000000002000100401";
"8020080002000000000000000BFFFFFFFFFFFFFFFFFFE0000800000000002000100401";
"80200800040000000000000037FFFFFFFFFFFFFFFFFFF0000800000000001000100401";
"802008000400000000000000CFFFFFFFFFFFFFFFFFFFF8000800000000001000100401";
"8020080008000000000000031FFFFFFFFFFFFFFFFFFFFC000800000000000800100401";
"8020080008000000000000043FFFFFFFFFFFFFFFFFFFFE000800000000000800100401";
"8020080008000000000000183FFFFFFFFFFFFFFFFFFFFE000800000000000800100401";
"8020080010000000000000607FFFFFFFFFFFFFFFFFFFFF000800000000000400100401";
"802008001000000000000180FFFFFFFFFFFFFFFFFFFFFF800800000000000400100401";
"802008001000000000000201FFFFFFFFFFFFFFFFFFFFFFC00800000000000400100401";
"802008002000000000000C01FFFFFFFFFFFFFFFFFFFFFFC00800000000000200100401";
"802008002000000000003003FFFFFFFFFFFFFFFFFFFFFFE00800000000000200100401";
"80200800200000000000C007FFFFFFFFFFFFFFFFFFFFFFF00800000000000200100401";
"802008002000000000010007FFFFFFFFFFFFFFFFFFFFFFF00800000000000200100401";
"80200800400000000006000FFFFFFFFFFFFFFFFFFFFFFFF80800000000000100100401";
"80200800400000000018000FFFFFFFFFFFFFFFFFFFFFFFF80800000000000100100401";
"80200800400000000060001FFFFFFFFFFFFFFFFFFFFFFFFC0800000000000100100401";
"80200800400000000080001FFFFFFFFFFFFFFFFFFFFFFFFC0800000000000100100401";
"80200800800000000300003FFFFFFFFFFFFFFFFFFFFFFFFE0800000000000080100401";
"80200800800000000C00003FFFFFFFFFFFFFFFFFFFFFFFFE0800000000000080100401";
"80200800800000003000007FFFFFFFFFFFFFFFFFFFFFFFFF0800000000000080100401";
"80200800800000004000007FFFFFFFFFFFFFFFFFFFFFFFFF0800000000000080100401";
"8020080080000001800000FFFFFFFFFFFFFFFFFFFFFFFFFF8800000000000080100401";
"8020080100000006000000FFFFFFFFFFFFFFFFFFFFFFFFFF8800000000000040100401";
"8020080100000018000000FFFFFFFFFFFFFFFFFFFFFFFFFF8800000000000040100401";
"8020080100000020000001FFFFFFFFFFFFFFFFFFFFFFFFFFC800000000000040100401";
"80200801000000C0000001FFFFFFFFFFFFFFFFFFFFFFFFFFC800000000000040100401";
"8020080100000300000001FFFFFFFFFFFFFFFFFFFFFFFFFFC800000000000040100401";
"8020080100000C00000001FFFFFFFFFFFFFFFFFFFFFFFFFFC800000000000040100401";
"8020080100001000000003FFFFFFFFFFFFFFFFFFFFFFFFFFE800000000000040100401";
"8020080100006000000003FFFFFFFFFFFFFFFFFFFFFFFFFFE800000000000040100401";
"8020080200018000000003FFFFFFFFFFFFFFFFFFFFFFFFFFE800000000000020100401";
"8020080200060000000003FFFFFFFFFFFFFFFFFFFFFFFFFFE800000000000020100401";
"8020080200080000000003FFFFFFFFFFFFFFFFFFFFFFFFFFE800000000000020100401";
"8020080200300000000007FFFFFFFFFFFFFFFFFFFFFFFFFFF800000000000020100401";
"8020080200C00000000007FFFFFFFFFFFFFFFFFFFFFFFFFFF800000000000020100401";
"8020080203000000000007FFFFFFFFFFFFFFFFFFFFFFFFFFF800000000000020100401";
"8020080204000000000007FFFFFFFFFFFFFFFFFFFFFFFFFFF800000000000020100401";
"8020080218000000000007FFFFFFFFFFFFFFFFFFFFFFFFFFF800000000000020100401";
"8020080260000000000007FFFFFFFFFFFFFFFFFFFFFFFFFFF800000000000020100401";
"8020080380000000000007FFFFFFFFFFFFFFFFFFFFFFFFFFF800000000000020100401";
"8020080200000000000007FFFFFFFFFFFFFFFFFFFFFFFFFFF800000000000020100401";
"8020080380000000000007FFFFFFFFFFFFFFFFFFFFFFFFFFF800000000000020100401";
"8020080260000000000007FFFFFFFFFFFFFFFFFFFFFFFFFFF800000000000020100401";
"8020080218000000000007FFFFFFFFFFFFFFFFFFFFFFFFFFF800000000000020100401";
"8020080204000000000007FFFFFFFFFFFFFFFFFFFFFFFFFFF800000000000020100401";
"8020080203000000000007FFFFFFFFFFFFFFFFFFFFFFFFFFF800000000000020100401";
"8020080200C00000000007FFFFFFFFFFFFFFFFFFFFFFFFFFF800000000000020100401";
"8020080200300000000007FFFFFFFFFFFFFFFFFFFFFFFFFFF800000000000020100401";
"8020080200080000000003FFFFFFFFFFFFFFFFFFFFFFFFFFE800000000000020100401";
"8020080200060000000003FFFFFFFFFFFFFFFFFFFFFFFFFFE800000000000020100401";
"8020080200018000000003FFFFFFFFFFFFFFFFFFFFFFFFFFE800000000000020100401";
"8020080100006000000003FFFFFFFFFFFFFFFFFFFFFFFFFFE800000000000040100401";
"8020080100001000000003FFFFFFFFFFFFFFFFFFFFFFFFFFE800000000000040100401";
"8020080100000C00000001FFFFFFFFFFFFFFFFFFFFFFFFFFC800000000000040100401";
"8020080100000300000001FFFFFFFFFFFFFFFFFFFFFFFFFFC800000000000040100401";
"80200801000000C0000001FFFFFFFFFFFFFFFFFFFFFFFFFFC800000000000040100401";
"8020080100000020000001FFFFFFFFFFFFFFFFFFFFFFFFFFC800000000000040100401";
"8020080100000018000000FFFFFFFFFFFFFFFFFFFFFFFFFF8800000000000040100401";
"8020080100000006000000FFFFFFFFFFFFFFFFFFFFFFFFFF8800000000000040100401";
"8020080080000001800000FFFFFFFFFFFFFFFFFFFFFFFFFF8800000000000080100401";
"80200800800000004000007FFFFFFFFFFFFFFFFFFFFFFFFF0800000000000080100401";
"80200800800000003000007FFFFFFFFFFFFFFFFFFFFFFFFF0800000000000080100401";
"80200800800000000C00003FFFFFFFFFFFFFFFFFFFFFFFFE0800000000000080100401";
"80200800800000000300003FFFFFFFFFFFFFFFFFFFFFFFFE0800000000000080100401";
"80200800400000000080001FFFFFFFFFFFFFFFFFFFFFFFFC0800000000000100100401";
"80200800400000000060001FFFFFFFFFFFFFFFFFFFFFFFFC0800000000000100100401";
"80200800400000000018000FFFFFFFFFFFFFFFFFFFFFFFF80800000000000100100401";
"80200800400000000006000FFFFFFFFFFFFFFFFFFFFFFFF80800000000000100100401";
"802008002000000000010007FFFFFFFFFFFFFFFFFFFFFFF00800000000000200100401";
"80200800200000000000C007FFFFFFFFFFFFFFFFFFFFFFF00800000000000200100401";
"802008002000000000003003FFFFFFFFFFFFFFFFFFFFFFE00800000000000200100401";
"802008002000000000000C01FFFFFFFFFFFFFFFFFFFFFFC00800000000000200100401";
"802008001000000000000201FFFFFFFFFFFFFFFFFFFFFFC00800000000000400100401";
"802008001000000000000180FFFFFFFFFFFFFFFFFFFFFF800800000000000400100401";
"8020080010000000000000607FFFFFFFFFFFFFFFFFFFFF000800000000000400100401";
"8020080008000000000000183FFFFFFFFFFFFFFFFFFFFE000800000000000800100401";
"8020080008000000000000043FFFFFFFFFFFFFFFFFFFFE000800000000000800100401";
"8020080008000000000000031FFFFFFFFFFFFFFFFFFFFC000800000000000800100401";
"802008000400000000000000CFFFFFFFFFFFFFFFFFFFF8000800000000001000100401";
"80200800040000000000000037FFFFFFFFFFFFFFFFFFF0000800000000001000100401";
"8020080002000000000000000BFFFFFFFFFFFFFFFFFFE0000800000000002000100401";
"80200800020000000000000007FFFFFFFFFFFFFFFFFFC0000800000000002000100401";
"80200800020000000000000001FFFFFFFFFFFFFFFFFF80000800000000002000100401";
"802008000100000000000000007FFFFFFFFFFFFFFFFE00000800000000004000100401";
"802008000100000000000000001FFFFFFFFFFFFFFFFC00000800000000004000100401";
"802008000080000000000000000FFFFFFFFFFFFFFFF800000800000000008000100401";
"8020080000800000000000000003FFFFFFFFFFFFFFE000000800000000008000100401";
"8020080000400000000000000001FFFFFFFFFFFFFFC000000800000000010000100401";
"80200800004000000000000000007FFFFFFFFFFFFF0000000800000000010000100401";
"80200800002000000000000000001FFFFFFFFFFFFC0000000800000000020000100401";
"802008000020000000000000000007FFFFFFFFFFF00000000800000000020000100401";
"802008000010000000000000000001FFFFFFFFFFC00000000800000000040000100401";
"802008000010000000000000000000FFFFFFFFFF000000000800000000040000100401";
"8020080000080000000000000000003FFFFFFFF8000000000800000000080000100401";
"8020080000080000000000000000000CFFFFFF80000000000800000000080000100401";
"8020080000040000000000000000000207FFF000000000000800000000100000100401";
"8020080000040000000000000000000180000000000000000800000000100000100401";
"8020080000020000000000000000000060000000000000000800000000200000100401";
"8020080000010000000000000000000018000000000000000800000000400000100401";
"8020080000010000000000000000000004000000000000000800000000400000100401";
"8020080000008000000000000000000003000000000000000800000000800000100401";
"8020080000008000000000000000000000C00000000000000800000000800000100401";
"8020080000004000000000000000000000300000000000000800000001000000100401";
"8020080000002000000000000000000000080000000000000800000002000000100401";
"8020080000001000000000000000000000060000000000000800000004000000100401";
"8020080000001000000000000000000000018000000000000800000004000000100401";
"8020080000000800000000000000000000006000000000000800000008000000100401";
"8020080000000400000000000000000000001000000000000800000010000000100401";
"8020080000000200000000000000000000000C00000000000800000020000000100401";
"8020080000000200000000000000000000000300000000000800000020000000100401";
"80200800000001000000000000000000000000C0000000000800000040000000100401";
"8020080000000080000000000000000000000020000000000800000080000000100401";
"8020080000000040000000000000000000000018000000000800000100000000100401";
"8020080000000020000000000000000000000006000000000800000200000000100401";
"8020080000000010000000000000000000000001800000000800000400000000100401";
"8020080000000008000000000000000000000000400000000800000800000000100401";
"8020080000000008000000000000000000000000300000000800000800000000100401";
"80200800000000040000000000000000000000000C0000000800001000000000100401";
"8020080000000002000000000000000000000000030000000800002000000000100401";
"8020080000000001000000000000000000000000008000000800004000000000100401";
"8020080000000000C00000000000000000000000006000000800018000000000100401";
"8020080000000000200000000000000000000000001800000800020000000000100401";
"8020080000000000100000000000000000000000000600000800040000000000100401";
"8020080000000000080000000000000000000000000100000800080000000000100401";
"80200800000000000400000000000000000000000000C0000800100000000000100401";
"8020080000000000020000000000000000000000000030000800200000000000100401";
"802008000000000001800000000000000000000000000C000800C00000000000100401";
"8020080000000000004000000000000000000000000002000801000000000000100401";
"8020080000000000002000000000000000000000000001800802000000000000100401";
"802008000000000000180000000000000000000000000060080C000000000000100401";
"8020080000000000000400000000000000000000000000180810000000000000100401";
"8020080000000000000200000000000000000000000000040820000000000000100401";
"80200800000000000001800000000000000000000000000308C0000000000000100401";
"802008000000000000006000000000000000000000000000CB00000000000000100401";
"8020080000000000000010000000000000000000000000003C00000000000000100401";
"802008000000000000000C000000000000000000000000001800000000000000100401";
"8020080000000000000003000000000000000000000000006000000000000000100401";
"8020080000000000000000C00000000000000000000000018000000000000000100401";
"8020080000000000000000300000000000000000000000060000000000000000100401";
"80200800000000000000000C0000000000000000000000180000000000000000100401";
"8020080000000000000000030000000000000000000000600000000000000000100401";
"802008000000000000000000C000000000000000000001800000000000000000100401";
"802008000000000000000000380000000000000000000E000000000000000000100401";
"8020080000000000000000000600000000000000000030000000000000000000100401";
"80200800000000000000000001C00000000000000001C0000000000000000000100401";
"8020080000000000000000000038000000000000000E00000000000000000000100401";
"802008000000000000000000000780000000000000F000000000000000000000100401";
"80200800000000000000000000007800000000000F0000000000000000000000100401";
"802008000000000000000000000007C000000001F00000000000000000000000100401";
"8020080000000000000000000000003FC00001FE000000000000000000000000100401";
"802008000000000000000000000000003FFFFE00000000000000000000000000100401";
"8020080000000000000000000000000000000000000000000000000000000000100401";
"8020080000000000000000000000000000000000000000000000000000000000100401";
"8020080000000000000000000000000000000000000000000000000000000000100401";
"8020080000000000000000000000000000000000000000000000000000000000100401";
"8020080000000000000000000000000000000000000000000000000000000000100401";
"8020080000000000000000000000000000000000000000000000000000000000100401";
"8020080000000000000000000000000000000000000000000000000000000000100401";
"8020080000000000000000000000000000000000000000000000000000000000100401";
"8020080000000000000000000000000000000000000000000000000000000000100401";
"80200FFFFFFFFFFFFFFFFFFFFFFFFFFFFFFFFFFFFFFFFFFFFFFFFFFFFFFFFFFFF00401";
"8020000000000000000000000000000000000000000000000000000000000000000401";
"8020000000000000000000000000000000000000000000000000000000000000000401";
"8020000000000000000000000000000000000000000000000000000000000000000401";
"8020000000000000000000000000000000000000000000000000000000000000000401";
"8020000000000000000000000000000000000000000000000000000000000000000401";
"8020000000000000000000000000000000000000000000000000000000000000000401";
"8020000000000000000000000000000000000000000000000000000000000000000401";
"8020000000000000000000000000000000000000000000000000000000000000000401";
"8020000000000000000000000000000000000000000000000000000000000000000401";
"803FFFFFFFFFFFFFFFFFFFFFFFFFFFFFFFFFFFFFFFFFFFFFFFFFFFFFFFFFFFFFFFFC01";
"8000000000000000000000000000000000000000000000000000000000000000000001";
"8000000000000000000000000000000000000000000000000000000000000000000001";
"8000000000000000000000000000000000000000000000000000000000000000000001";
"8000000000000000000000000000000000000000000000000000000000000000000001";
"8000000000000000000000000000000000000000000000000000000000000000000001";
"8000000000000000000000000000000000000000000000000000000000000000000001";
"8000000000000000000000000000000000000000000000000000000000000000000001";
"8000000000000000000000000000000000000000000000000000000000000000000001";
"8000000000000000000000000000000000000000000000000000000000000000000001";
"FFFFFFFFFFFFFFFFFFFFFFFFFFFFFFFFFFFFFFFFFFFFFFFFFFFFFFFFFFFFFFFFFFFFFF"].
