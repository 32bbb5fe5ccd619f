(** The command line of the font converter: gfx-font-converter/FontConverterConfig.h,
    FontConverterConfig.cpp, and the beginning of [main] (main.cpp:255-281).
    Strings are lists of bytes without the final NUL.  [getopt] is modelled as glibc's function
    without POSIXLY_CORRECT in the environment; the messages it prints are left out.  [std::isspace],
    the digits and the character classes are those of the C locale (the program never calls
    [setlocale]). *)
From Verif Require Import Base M_BufferedOut M_Pbm M_Packing.

(** ** getopt with the option string "f:o:d:s:e:bh" (FontConverterConfig.cpp:11) *)
Definition takesArgument (c : Z) : bool :=
  (c =? 102) || (c =? 111) || (c =? 100) || (c =? 115) || (c =? 101).    (* f o d s e *)
Definition isFlag (c : Z) : bool := (c =? 98) || (c =? 104).             (* b h *)
(** What one call returns: an option with its argument ([[]] for a flag), or '?'. *)
Inductive optEvent := Opt (c : Z) (arg : list Z) | Bad.
(** The letters after the '-' of one argument: the calls' results and the letter that still waits
    for its argument.  The rest of the argument, if there is any, is the argument of the option. *)
Fixpoint cluster (cs : list Z) : list optEvent * option Z :=
  match cs with
  | [] => ([], None)
  | c :: r =>
      if takesArgument c then match r with [] => ([], Some c) | _ => ([Opt c r], None) end
      else let '(es, w) := cluster r in ((if isFlag c then Opt c [] else Bad) :: es, w)
  end.
(** All calls up to the one that returns -1 (FontConverterConfig.cpp:11); [w] is the letter that waits
    for the next argument.  An argument that is "-" or does not begin with '-' is no option and is
    passed over; "--" ends the options; a letter still waiting at the end gives '?'. *)
Fixpoint getopts (w : option Z) (args : list (list Z)) : list optEvent :=
  match args with
  | [] => match w with Some _ => [Bad] | None => [] end
  | a :: args' =>
      match w with
      | Some c => Opt c a :: getopts None args'
      | None =>
          match a with
          | c :: cs => if negb (c =? 45) || atEnd cs then getopts None args'
                       else if eqbl cs [45] then []
                       else let '(es, w') := cluster cs in es ++ getopts w' args'
          | [] => getopts None args'
          end
      end
  end.

(** ** [std::stoi] (FontConverterConfig.cpp:22, 25): white space, an optional sign, digits; what
    follows is ignored.  [None]: [std::invalid_argument] (no digit) or [std::out_of_range]. *)
Definition stoi (s : list Z) : option Z :=
  let '(neg, t) := match skipSpace s with
                   | c :: r => if c =? 45 then (true, r) else if c =? 43 then (false, r) else (false, c :: r)
                   | [] => (false, [])
                   end in
  let '(ds, _) := span isDigit t in
  if atEnd ds then None
  else let v := if neg : bool then - digitsValue ds else digitsValue ds in
       if in_int v then Some v else None.

(** ** The configuration (FontConverterConfig.h:21-29) *)
Record config := mkConfig { fontFileName : list Z; outputDirectory : list Z; encodingName : list Z;
                            dpi : Z; fontSize : Z; lastCode : Z; binary : bool; printHelp : bool }.
Definition asciiName : list Z := [65; 83; 67; 73; 73].
(** before the loop (FontConverterConfig.h:21-29, FontConverterConfig.cpp:10) *)
Definition config0 : config := mkConfig [] [] asciiName 141 12 255 false false.
(** one round of the loop (FontConverterConfig.cpp:11-38); [None]: [std::stoi] throws *)
Definition setOption (e : optEvent) (c : config) : option config :=
  match e with
  | Opt o a =>
      if o =? 102 then Some (mkConfig a (outputDirectory c) (encodingName c) (dpi c) (fontSize c) (lastCode c) (binary c) (printHelp c))
      else if o =? 111 then Some (mkConfig (fontFileName c) a (encodingName c) (dpi c) (fontSize c) (lastCode c) (binary c) (printHelp c))
      else if o =? 100 then
        match stoi a with
        | Some n => Some (mkConfig (fontFileName c) (outputDirectory c) (encodingName c) n (fontSize c) (lastCode c) (binary c) (printHelp c))
        | None => None
        end
      else if o =? 115 then
        match stoi a with
        | Some n => Some (mkConfig (fontFileName c) (outputDirectory c) (encodingName c) (dpi c) n (lastCode c) (binary c) (printHelp c))
        | None => None
        end
      else if o =? 101 then Some (mkConfig (fontFileName c) (outputDirectory c) a (dpi c) (fontSize c) (lastCode c) (binary c) (printHelp c))
      else if o =? 98 then Some (mkConfig (fontFileName c) (outputDirectory c) (encodingName c) (dpi c) (fontSize c) (lastCode c) true (printHelp c))
      else Some (mkConfig (fontFileName c) (outputDirectory c) (encodingName c) (dpi c) (fontSize c) (lastCode c) (binary c) true)
  | Bad => Some (mkConfig (fontFileName c) (outputDirectory c) (encodingName c) (dpi c) (fontSize c) (lastCode c) (binary c) true)
  end.
Fixpoint setOptions (es : list optEvent) (c : config) : option config :=
  match es with
  | [] => Some c
  | e :: es' => match setOption e c with Some c' => setOptions es' c' | None => None end
  end.

(** [std::toupper] on a [char] (FontConverterConfig.cpp:40-43): a negative value other than EOF is
    undefined behaviour.  [sg]: [char] is signed. *)
Definition toUpper (sg : bool) (c : Z) : res Z :=
  if sg && (128 <=? c) && negb (c =? 255) then UB
  else Ok (if (97 <=? c) && (c <=? 122) then c - 32 else c).
Fixpoint toUppers (sg : bool) (s : list Z) : res (list Z) :=
  match s with
  | [] => Ok []
  | c :: r => do c' <- toUpper sg c; do r' <- toUppers sg r; Ok (c' :: r')
  end.

(** The constructor (FontConverterConfig.cpp:7-53) of the arguments after the program's name. *)
Definition parseConfig (sg : bool) (args : list (list Z)) : res (option config) :=
  match setOptions (getopts None args) config0 with
  | None => Ok None
  | Some c =>
      do e <- toUppers sg (encodingName c);
      Ok (Some (mkConfig (fontFileName c) (outputDirectory c) e (dpi c) (fontSize c)
                         (if eqbl e asciiName then 126 else 255) (binary c) (printHelp c)))
  end.

(** ** The name of the font (main.cpp:269-273) *)
(** [path.filename()]: what follows the last '/' *)
Fixpoint fileName (cur s : list Z) : list Z :=
  match s with
  | [] => cur
  | c :: r => if c =? 47 then fileName [] r else fileName (cur ++ [c]) r
  end.
(** the last '.' of a string: what stands before it *)
Fixpoint beforeDot (cur s : list Z) : option (list Z) :=
  match s with
  | [] => None
  | c :: r => match beforeDot (cur ++ [c]) r with
              | Some x => Some x
              | None => if c =? 46 then Some cur else None
              end
  end.
(** [replace_extension("")]: the extension begins at the last '.'; "." and ".." and a name whose only
    '.' is its first character have none *)
Definition stripExtension (f : list Z) : list Z :=
  if eqbl f [46] || eqbl f [46; 46] then f
  else match beforeDot [] f with
       | Some [] | None => f
       | Some x => x
       end.
(** main.cpp:271-273 *)
Definition fontName (c : config) : list Z :=
  stripExtension (fileName [] (fontFileName c)) ++ decimal (fontSize c) ++ [112; 116] ++
  decimal (if 127 <? lastCode c then 8 else 7) ++ [98].

(** [config.getFontSize() << 6] (main.cpp:278) in C++17: undefined for a negative value and for a
    product that is no [unsigned] value; a product above INT_MAX is converted to [int] by the
    implementation, here modulo 2^32. *)
Definition charSize (size : Z) : res Z :=
  if (size <? 0) || (4294967296 <=? size * 64) then UB
  else Ok (if size * 64 <=? INT_MAX then size * 64 else size * 64 - 4294967296).

(** ** The beginning of [main] (main.cpp:255-281): the exception of [std::stoi] is thrown outside the
    [try] block, so the program is terminated; the usage message and the return value 1; or the
    conversion, with what it works with: the font's name, whether the output is binary, the encoding,
    the last code, the resolution and the character size.  For the output directory and the
    place of the files see M_Converter. *)
Record job := mkJob { jobName : list Z; jobFont : list Z; jobBinary : bool; jobEncoding : list Z; jobLast : Z;
                      jobDpi : Z; jobCharSize : Z }.
Inductive start := Terminated | Usage | Converts (j : job).
Definition startMain (sg : bool) (args : list (list Z)) : res start :=
  do r <- parseConfig sg args;
  match r with
  | None => Ok Terminated
  | Some c =>
      if printHelp c || atEnd (fontFileName c) then Ok Usage
      else do s <- charSize (fontSize c);
           Ok (Converts (mkJob (fontName c) (fontFileName c) (binary c) (encodingName c) (lastCode c) (dpi c) s))
  end.
