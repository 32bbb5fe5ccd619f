(** A reader for the C declarations of a generated font header: from the characters to tokens, from
    tokens to initialisers, from initialisers to a font.  Written from the C language and from the order
    of the members in GFXFontsAdapter.h, without a look at the converter.  It reads the subset of C
    without preprocessor lines, literals in quotes, block comments and continued lines. *)
From Coq Require Import String Ascii.
From Verif Require Import Base S_Packing M_Font M_Packing M_FontText.
Open Scope Z_scope.
Open Scope list_scope.

(** ** Tokens *)
Inductive token := Word (w : list Z) | Punct (c : Z).
Definition word_char (c : Z) : bool :=
  ((48 <=? c) && (c <=? 57)) || ((65 <=? c) && (c <=? 90)) || ((97 <=? c) && (c <=? 122)) || (c =? 95).
Definition space_char (c : Z) : bool := (c =? 32) || ((9 <=? c) && (c <=? 13)).
Inductive place := Between | InWord (w : list Z) | AfterSlash | InComment.
(** a character outside words and comments *)
Definition start (c : Z) : list token * place :=
  if space_char c then ([], Between) else if word_char c then ([], InWord [c])
  else if c =? 47 then ([], AfterSlash) else ([Punct c], Between).
Fixpoint lex (p : place) (t : list Z) : list token :=
  match t with
  | [] => match p with InWord w => [Word w] | AfterSlash => [Punct 47] | _ => [] end
  | c :: t =>
    match p with
    | Between => fst (start c) ++ lex (snd (start c)) t
    | InWord w => if word_char c then lex (InWord (w ++ [c])) t else Word w :: fst (start c) ++ lex (snd (start c)) t
    | AfterSlash => if c =? 47 then lex InComment t else Punct 47 :: fst (start c) ++ lex (snd (start c)) t
    | InComment => lex (if c =? 10 then Between else InComment) t
    end
  end.

(** ** Initialisers *)
(** a word, maybe with a minus sign, or a list in braces *)
Inductive tree := Leaf (minus : bool) (w : list Z) | Node (l : list tree).
(** what may come next: an element, the word after a minus sign, a comma or closing brace *)
Inductive want := Element | AfterMinus | Separator.
(** [opened]: the lists in braces being read, innermost first, each in reverse *)
Fixpoint read_init (s : want) (opened : list (list tree)) (ts : list token) {struct ts} : option (tree * list token) :=
  match ts with
  | [] => None
  | Word w :: ts =>
    let found (x : tree) := match opened with [] => Some (x, ts) | l :: o => read_init Separator ((x :: l) :: o) ts end in
    match s with Element => found (Leaf false w) | AfterMinus => found (Leaf true w) | Separator => None end
  | Punct c :: ts =>
    match s with
    | Element => if c =? 123 then read_init Element ([] :: opened) ts else if c =? 45 then read_init AfterMinus opened ts else None
    | AfterMinus => None
    | Separator =>
      if c =? 44 then read_init Element opened ts
      else if c =? 125 then
        match opened with
        | [] => None
        | [l] => Some (Node (rev l), ts)
        | l :: l2 :: o => read_init Separator ((Node (rev l) :: l2) :: o) ts
        end
      else None
    end
  end.

(** ** Numbers *)
Definition hex_digit (c : Z) : option Z :=
  if (48 <=? c) && (c <=? 57) then Some (c - 48) else if (65 <=? c) && (c <=? 70) then Some (c - 55)
  else if (97 <=? c) && (c <=? 102) then Some (c - 87) else None.
Definition dec_digit (c : Z) : option Z := if (48 <=? c) && (c <=? 57) then Some (c - 48) else None.
Fixpoint read_digits (digit : Z -> option Z) (base acc : Z) (w : list Z) : option Z :=
  match w with
  | [] => Some acc
  | c :: w => match digit c with Some d => read_digits digit base (base * acc + d) w | None => None end
  end.
(** 0x..., 0, or decimal digits without a leading zero (which would mean octal) *)
Definition word_value (w : list Z) : option Z :=
  match w with
  | [] => None
  | [c] => dec_digit c
  | c0 :: (c1 :: w2) as w1 =>
    if c0 =? 48 then if (c1 =? 120) && negb (zlen w2 =? 0) then read_digits hex_digit 16 0 w2 else None
    else read_digits dec_digit 10 0 w
  end.
Definition number (x : tree) : option Z :=
  match x with
  | Leaf minus w => match word_value w with Some n => Some (if minus : bool then - n else n) | None => None end
  | Node _ => None
  end.
Fixpoint all {A B : Type} (f : A -> option B) (l : list A) : option (list B) :=
  match l with
  | [] => Some []
  | x :: l => match f x, all f l with Some y, Some ys => Some (y :: ys) | _, _ => None end
  end.

(** ** Declarations *)
Fixpoint same (a b : list Z) : bool :=
  match a, b with [], [] => true | x :: a, y :: b => (x =? y) && same a b | _, _ => false end.
(** "const type name = init;" or "const type name[] = init;" *)
Record declaration := mkDecl { dtype : list Z; dname : list Z; darray : bool; dinit : tree }.
Definition read_rest (ty name : list Z) (array : bool) (ts : list token) : option (declaration * list token) :=
  match read_init Element [] ts with
  | Some (x, Punct c :: ts) => if c =? 59 then Some (mkDecl ty name array x, ts) else None
  | _ => None
  end.
Definition read_declaration (ts : list token) : option (declaration * list token) :=
  match ts with
  | Word k :: Word ty :: Word name :: Punct c :: ts =>
    if same k (txt "const") then
      if c =? 61 then read_rest ty name false ts
      else match ts with
           | Punct c1 :: Punct c2 :: ts => if (c =? 91) && (c1 =? 93) && (c2 =? 61) then read_rest ty name true ts else None
           | _ => None
           end
    else None
  | _ => None
  end.
(** an identifier does not begin with a digit *)
Definition identifier (w : list Z) : bool := match w with c :: _ => match dec_digit c with None => forallb word_char w | Some _ => false end | [] => false end.

(** ** The font *)
(** GFXFontsAdapter.h:10-16, GlyphDescriptor: offset, {width, height}, shift, {x offset, y offset} *)
Definition read_glyph_tree (x : tree) : option glyph :=
  match x with
  | Node [o; Node [w; h]; s; Node [x; y]] =>
    match all number [o; w; h; s; x; y] with Some [o; w; h; s; x; y] => Some (mkGlyph o w h s x y) | _ => None end
  | _ => None
  end.
Definition elements (x : tree) : option (list tree) := match x with Node l => Some l | Leaf _ _ => None end.
(** what a header declares: the name of the font object, its bitmap table, glyph table, first and last
    code and line height *)
Record declared := mkDeclared { dfont : list Z; dbitmap : list Z; dglyphs : list glyph; dfirst : Z; dlast : Z; dheight : Z }.
(** two arrays and a structure that refers to them by name *)
Definition read_header (t : list Z) : option declared :=
  match read_declaration (lex Between t) with
  | Some (a, ts) =>
    match read_declaration ts with
    | Some (b, ts) =>
      match read_declaration ts with
      | Some (c, []) =>
        match dinit a, dinit b, dinit c with
        | Node la, Node lb, Node [Leaf false ra; Leaf false rb; f; l; h] =>
          if darray a && darray b && negb (darray c) && same (dtype a) (txt "uint8_t") && same (dtype b) (txt "GFXglyph") && same (dtype c) (txt "GFXfont") &&
             identifier (dname a) && identifier (dname b) && identifier (dname c) && same ra (dname a) && same rb (dname b) then
            match all number la, all read_glyph_tree lb, all number [f; l; h] with
            | Some bs, Some gs, Some [f; l; h] => Some (mkDeclared (dname c) bs gs f l h)
            | _, _, _ => None
            end
          else None
        | _, _, _ => None
        end
      | _ => None
      end
    | None => None
    end
  | None => None
  end.

(** ** Vocabulary *)
(** an iconv that never makes a line feed of a single byte *)
Definition one_line (iconv : nat -> list Z -> iconvResult) : Prop := forall n c o, iconv n [c] = Converted o -> ~ In 10 o.
(** the advance of a rendered character as far as a byte can hold it *)
Definition rendered_advance (r : rendered) : Z := (radvance r / 65536) mod 256.
(** the pixels of rendered characters set one after the other from [pos] on *)
Definition rendered_text (rs : list rendered) (pos q : Z * Z) : Prop :=
  exists n r i j, nth_error rs n = Some r /\ 0 <= i < rwidth r /\ 0 <= j < rrows r /\ rpixel r i j = true /\
    q = (fst pos + total (map rendered_advance (firstn n rs)) + rleft r + i, snd pos + (1 - rtop r) + j).
