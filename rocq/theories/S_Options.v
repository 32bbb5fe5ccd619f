(** What a command line of the font converter says, independent of how it is scanned. *)
From Verif Require Import Base S_BufferedOut S_Pbm.

(** letters: -f -o -d -s -e take an argument, -b does not; any other letter asks for help *)
Definition with_argument (c : Z) : Prop := In c [102; 111; 100; 115; 101].
(** the pieces of a command line *)
Inductive item :=
  | Operand (a : list Z)                           (* a word that is no option *)
  | Letters (cs : list Z)                          (* -xyz, no letter takes an argument *)
  | Joined (cs : list Z) (c : Z) (arg : list Z)    (* -xycARG *)
  | Apart (cs : list Z) (c : Z) (arg : list Z).    (* -xyc ARG *)
Definition written (i : item) : list (list Z) :=
  match i with
  | Operand a => [a]
  | Letters cs => [45 :: cs]
  | Joined cs c arg => [45 :: cs ++ c :: arg]
  | Apart cs c arg => [45 :: cs ++ [c]; arg]
  end.
Definition plain (cs : list Z) : Prop := Forall (fun c => ~ with_argument c) cs.
Definition item_ok (i : item) : Prop :=
  match i with
  | Operand a => a = [45] \/ ~ exists r, a = 45 :: r
  | Letters cs => cs <> [] /\ cs <> [45] /\ plain cs
  | Joined cs c arg => plain cs /\ with_argument c /\ arg <> []
  | Apart cs c arg => plain cs /\ with_argument c
  end.
(** how it ends: with the last piece, with "--" and ignored words, or with a letter whose argument is
    missing *)
Inductive ending := AllRead | Dashes (ignored : list (list Z)) | Missing (cs : list Z) (c : Z).
Definition ending_words (e : ending) : list (list Z) :=
  match e with
  | AllRead => []
  | Dashes ws => [45; 45] :: ws
  | Missing cs c => [45 :: cs ++ [c]]
  end.
Definition ending_ok (e : ending) : Prop :=
  match e with Missing cs c => plain cs /\ with_argument c | _ => True end.
Definition command_line (args : list (list Z)) (items : list item) (e : ending) : Prop :=
  Forall item_ok items /\ ending_ok e /\ args = flat_map written items ++ ending_words e.

(** what the pieces set: letters with their arguments, in order *)
Definition letters (cs : list Z) : list (Z * list Z) := map (fun c => (c, [])) cs.
Definition item_settings (i : item) : list (Z * list Z) :=
  match i with
  | Operand _ => []
  | Letters cs => letters cs
  | Joined cs c arg | Apart cs c arg => letters cs ++ [(c, arg)]
  end.
Definition settings (items : list item) (e : ending) : list (Z * list Z) :=
  flat_map item_settings items ++ match e with Missing cs _ => letters cs | _ => [] end.
(** the argument that counts for a letter is the last one given *)
Definition last_given (c : Z) (s : list (Z * list Z)) (default v : list Z) : Prop :=
  (exists s1 s2, s = s1 ++ (c, v) :: s2 /\ forall a, ~ In (c, a) s2) \/
  ((forall a, ~ In (c, a) s) /\ v = default).
Definition given (c : Z) (s : list (Z * list Z)) : Prop := exists a, In (c, a) s.
(** help is shown for an unknown letter and for a missing argument *)
Definition wants_help (s : list (Z * list Z)) (e : ending) : Prop :=
  (exists c, given c s /\ ~ with_argument c /\ c <> 98) \/ exists cs c, e = Missing cs c.

(** the [int] at the beginning of a text, white space and a sign allowed, the rest ignored *)
Definition reads_int (a : list Z) (n : Z) : Prop :=
  exists s sign ds r, a = s ++ sign ++ ds ++ r /\ Forall space s /\
    (sign = [] /\ n = horner 0 ds \/ sign = [43] /\ n = horner 0 ds \/ sign = [45] /\ n = - horner 0 ds) /\
    ds <> [] /\ Forall is_digit ds /\ match r with [] => True | c :: _ => ~ is_digit c end /\
    - 2147483648 <= n <= 2147483647.
(** the number that counts for a letter *)
Definition last_number (c : Z) (s : list (Z * list Z)) (default n : Z) : Prop :=
  (exists a, last_given c s [] a /\ given c s /\ reads_int a n) \/ (~ given c s /\ n = default).

(** upper case, letters A-Z only *)
Definition upper_case (a b : list Z) : Prop :=
  Forall2 (fun x y => (97 <= x <= 122 /\ y = x - 32) \/ (~ 97 <= x <= 122 /\ y = x)) a b.
(** "ASCII" in any mixture of cases *)
Definition says_ascii (a : list Z) : Prop := upper_case a [65; 83; 67; 73; 73].

(** the file's name without directories and without its extension; a '.' at the beginning begins no
    extension *)
Definition stem_of (path s : list Z) : Prop :=
  exists dir base, path = dir ++ base /\ (dir = [] \/ exists d, dir = d ++ [47]) /\ ~ In 47 base /\
    ((exists ext, base = s ++ 46 :: ext /\ ~ In 46 ext /\ s <> [] /\ base <> [46; 46]) \/
     (base = s /\ (~ In 46 s \/ s = [46; 46] \/ exists ext, s = 46 :: ext /\ ~ In 46 ext))).
(** the name of the generated font: stem, size, "pt7b" or "pt8b" *)
Definition font_name (path : list Z) (size last : Z) (name : list Z) : Prop :=
  exists s t, stem_of path s /\ dec_text size t /\
    name = s ++ t ++ [112; 116] ++ [if last =? 126 then 55 else 56] ++ [98].
