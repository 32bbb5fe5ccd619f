(** The font converter as a whole: [main] of gfx-font-converter/main.cpp with the calls it makes to
    FreeType, iconv and the file system (gfx-font-converter/FreeTypeLibrary.cpp, FreeTypeFace.cpp,
    FreeTypeGlyph.cpp, EncodingConverter.h).

    The calls are recorded in the order they happen, with the success of those that can fail; handles
    are numbered by the length of the record when they are obtained.  What the libraries answer is any
    function of the record so far.  Simplifications: the text a stream object writes to its file is
    recorded as one write; what goes to std::cout and std::cerr, the index of the face (0), the flags of
    loading and rendering and the interpreter version are constants and left out; memory is never
    exhausted. *)
From Coq Require Import String.
From Verif Require Import Base M_BufferedOut M_Font M_Packing M_FontText M_Options.
Open Scope Z_scope.
Open Scope list_scope.

Notation handle := nat (only parsing).
Inductive event :=
  | IsDirectory (path : list Z) (known : bool)                   (* main.cpp:274; throws if the state is unknown *)
  | FtInit (got : option handle)                                 (* FreeTypeLibrary.cpp:14 *)
  | FtPropertySet (library : handle)                             (* FreeTypeLibrary.cpp:20 *)
  | FtNewFace (library : handle) (path : list Z) (got : option handle)   (* FreeTypeLibrary.cpp:27 *)
  | FtSetCharSize (face : handle) (width height hres vres : Z) (ok : bool)  (* FreeTypeFace.cpp:11 *)
  | FtLoadChar (face : handle) (code : Z) (ok : bool)            (* FreeTypeFace.cpp:20 *)
  | FtRenderGlyph (face : handle) (ok : bool)                    (* FreeTypeFace.cpp:24 *)
  | FtGetGlyph (face : handle) (got : option handle)             (* FreeTypeFace.cpp:29 *)
  | ReadGlyph (g : handle) (isBitmap : bool)                     (* FreeTypeGlyph.cpp:7 *)
  | ReadHeight (face : handle)                                   (* FreeTypeFace.h:16 *)
  | IconvOpen (to from : list Z) (got : option handle)           (* EncodingConverter.cpp:6 *)
  | Iconv (descriptor : handle) (input : list Z)                 (* EncodingConverter.cpp:30, 55 *)
  | FileOpen (path : list Z) (got : option handle)               (* main.cpp:215, 323, 337 *)
  | FileWrite (f : handle) (bytes : list Z) (ok : bool)          (* main.cpp:40, 122, 252, 331, 354 *)
  | FileClose (f : handle)                                       (* destructor of std::ofstream *)
  | IconvClose (descriptor : handle)                             (* EncodingConverter.h:17 *)
  | FtDoneGlyph (g : handle)                                     (* FreeTypeGlyph.h:9 *)
  | FtDoneFace (face : handle)                                   (* FreeTypeFace.h:12 *)
  | FtDone (library : handle).                                   (* FreeTypeLibrary.cpp:11 *)
Definition log : Type := list event.

(** what the libraries answer, given everything that has happened; [wIconv] gets the names of the target
    and source encodings and the input, [wGlyph] the code that was loaded, [wHeight] gives
    size->metrics.height in 26.6 units; [wErrorText]: FT_Error_String has a text for the error of the last
    call (it has none for any error in FreeType's default configuration) *)
Record world := mkWorld {
  wIsDirectory : log -> option bool;
  wInit : log -> bool; wNewFace : log -> bool; wSetCharSize : log -> bool;
  wLoadChar : log -> bool; wRender : log -> bool; wGetGlyph : log -> bool;
  wIsBitmap : log -> bool; wGlyph : log -> Z -> rendered; wHeight : log -> Z;
  wIconvOpen : log -> bool; wIconv : log -> list Z -> list Z -> list Z -> iconvResult;
  wOpen : log -> bool; wWrite : log -> bool; wErrorText : log -> bool }.

(** C++ code with calls and exceptions (all of them std::runtime_error or std::filesystem::filesystem_error) *)
Inductive outcome (A : Type) := Val (a : A) | Exn.
Arguments Val {A}. Arguments Exn {A}.
Definition act (A : Type) : Type := log -> res (outcome A * log).
Definition ret {A} (a : A) : act A := fun l => Ok (Val a, l).
Definition lift {A} (r : res A) : act A := fun l => do a <- r; Ok (Val a, l).
Definition andThen {A B} (m : act A) (k : A -> act B) : act B := fun l =>
  do ' (o, l) <- m l; match o with Val a => k a l | Exn => Ok (Exn, l) end.
(** a call that cannot fail, or whose failure is ignored *)
Definition call (e : log -> event) : act unit := fun l => Ok (Val tt, l ++ [e l]).
(** a call that throws if it fails *)
Definition callOrThrow (ok : log -> bool) (e : bool -> event) : act unit := fun l =>
  Ok (if ok l then Val tt else Exn, l ++ [e (ok l)]).
(** a call that gives a handle or throws *)
Definition acquire (ok : log -> bool) (e : option handle -> event) : act handle := fun l =>
  Ok (if ok l then (Val (length l), l ++ [e (Some (length l))]) else (Exn, l ++ [e None])).
(** a call of FreeType that throws an exception with the text of the error if it fails: the message is
    made by adding the result of FT_Error_String to a std::string, which is undefined for the null pointer
    that stands for "no text" (FreeTypeLibrary.cpp:16, 29, FreeTypeFace.cpp:14, 22, 26) *)
Definition described {A} (w : world) (m : act A) : act A := fun l =>
  do ' (o, l') <- m l;
  match o with Val a => Ok (Val a, l') | Exn => guard (wErrorText w l') (Ok (Exn, l')) end.
(** a scope with a local object: its destructor makes a call, also when an exception leaves the scope *)
Definition scoped {A} (m : act A) (e : event) : act A := fun l =>
  do ' (o, l) <- m l; Ok (o, l ++ [e]).

Notation "'let*' x := m 'in' k" := (andThen m (fun x => k)) (at level 200, x name, m at level 100, k at level 200).
Notation "'let*' ' p := m 'in' k" := (andThen m (fun p => k)) (at level 200, p strict pattern, m at level 100, k at level 200).

(** FreeTypeFace.cpp:18-37 *)
Definition renderGlyph (w : world) (face : handle) (symbol : Z) : act handle :=
  let* _ := described w (callOrThrow (wLoadChar w) (FtLoadChar face symbol)) in
  let* _ := described w (callOrThrow (wRender w) (FtRenderGlyph face)) in
  acquire (wGetGlyph w) (FtGetGlyph face).

(** FreeTypeGlyph.cpp:5-12 and the reading of the glyph in main.cpp:296-314 *)
Definition packed_glyph (w : world) (g : handle) (symbol : Z) (s : bitStream) : act (glyphData * bitStream) :=
  let* _ := callOrThrow (wIsBitmap w) (ReadGlyph g) in
  fun l => lift (packGlyph (wGlyph w l symbol) s) l.

(** the bytes handed to iconv: those kept and the new one (EncodingConverter.cpp:24-28, 46-54) *)
Definition iconvInput (symbol : Z) (e : encoder) : list Z := firstn (Z.to_nat (inSize e)) (ebuf e) ++ [symbol].

(** main.cpp:294-315, one pass of the table loop *)
Definition tablePass (w : world) (face descriptor : handle) (encoding : list Z) (i : Z) (e : encoder) (s : bitStream)
  : act (glyphData * encoder * bitStream) :=
  fun l =>
  (let* _ := call (fun _ => Iconv descriptor (iconvInput (u8 i) e)) in
   let* ' (symbol, e) := lift (convertRaw (fun _ => wIconv w l (txt "UCS-4LE") encoding) (u8 i) e) in
   let* g := renderGlyph w face symbol in
   let* ' (d, s) := scoped (packed_glyph w g symbol s) (FtDoneGlyph g) in
   ret (d, e, s)) l.
(** main.cpp:292-316 *)
Fixpoint tableScan (w : world) (face descriptor : handle) (encoding : list Z) (codes : list Z) (e : encoder) (s : bitStream)
  : act (list glyphData) :=
  match codes with
  | [] => ret []
  | i :: codes =>
      let* ' (d, e, s) := tablePass w face descriptor encoding i e s in
      let* t := tableScan w face descriptor encoding codes e s in
      ret (d :: t)
  end.
(** main.cpp:287-317; the loop has at most 224 passes *)
Definition readTable (w : world) (face : handle) (encoding : list Z) (first last : Z) : act (list glyphData) :=
  let* d := acquire (wIconvOpen w) (IconvOpen (txt "UCS-4LE") encoding) in
  scoped (let* codes := lift (codeLoop 256 first last) in
          tableScan w face d encoding codes newEncoder newBits) (IconvClose d).

(** [std::filesystem::path::operator/] for a file name without '/' (main.cpp:214, 322, 336) *)
Definition inDirectory (dir name : list Z) : list Z :=
  match dir with
  | [] => name
  | _ => if List.last dir 0 =? 47 then dir ++ name else dir ++ [47] ++ name
  end.
(** [path(argv[0]).parent_path()] (main.cpp:275): without the last name and the '/'s before it; the root
    stays.  (For a program name of '/'s only the result differs.) *)
Fixpoint dropSlashes (s : list Z) : list Z :=
  match s with c :: r => if c =? 47 then dropSlashes r else s | [] => [] end.
Fixpoint dropName (s : list Z) : list Z :=
  match s with c :: r => if c =? 47 then s else dropName r | [] => [] end.
Definition parentPath (s : list Z) : list Z :=
  let dir := rev (dropSlashes (dropName (rev s))) in
  match dir, s with
  | [], c :: _ => if c =? 47 then [47] else []
  | _, _ => dir
  end.

(** writing to a file: errors are never looked at *)
Definition write (w : world) (f : handle) (bytes : list Z) : act unit :=
  call (fun l => FileWrite f bytes (wWrite w l)).
(** the two loops of main.cpp:329-332 and 344-355 *)
Fixpoint writeAll (w : world) (f : handle) (records : list (list Z)) : act unit :=
  match records with
  | [] => ret tt
  | r :: records => let* _ := write w f r in writeAll w f records
  end.
(** main.cpp:320-356 *)
Definition writeBinary (w : world) (dir name : list Z) (t : list glyphData) : act unit :=
  let* f := acquire (wOpen w) (FileOpen (inDirectory dir (name ++ txt "Bitmaps.bin"))) in
  let* _ := scoped (writeAll w f (map snd t)) (FileClose f) in
  let* f := acquire (wOpen w) (FileOpen (inDirectory dir (name ++ txt "Glyphs.bin"))) in
  scoped (writeAll w f (map glyphBytes (binaryGlyphs 0 t))) (FileClose f).

(** main.cpp:222-231: the text of the bitmap table *)
Definition bitmapText (name : list Z) (t : list glyphData) : res (list Z) :=
  do h <- openHex name []; do h <- putHexAll (concat (map snd t)) h; closeHex h.
(** main.cpp:234-237 with the calls of iconv (main.cpp:155-158) *)
Fixpoint glyphScan (w : world) (junk : list Z) (descriptor : handle) (encoding : list Z) (l : list glyph) (t : glyphStream)
  : act glyphStream :=
  match l with
  | [] => ret t
  | g :: l => fun past =>
      (let* _ := if 126 <? currentGlyph t then call (fun _ => Iconv descriptor (iconvInput (u8 (currentGlyph t)) (enc t)))
                 else ret tt in
       let* t := lift (putGlyph (fun _ => wIconv w past (txt "UTF-8") encoding) junk g t) in
       glyphScan w junk descriptor encoding l t) past
  end.
(** main.cpp:209-253, [writeHeaderFile] *)
Definition writeHeader (w : world) (junk name dir encoding : list Z) (t : list glyphData) (first last height : Z) : act unit :=
  let* f := acquire (wOpen w) (FileOpen (inDirectory dir (name ++ txt ".h"))) in
  scoped (
    let* text := lift (bitmapText name t) in
    let* _ := write w f text in
    let* d := acquire (wIconvOpen w) (IconvOpen (txt "UTF-8") encoding) in
    let* _ := scoped (
      let* g := glyphScan w junk d encoding (map fst t) (openGlyphs name (eqbl encoding asciiName) []) in
      let* text := lift (closeGlyphs g) in
      write w f text) (IconvClose d) in
    let* text := lift (fontStruct name first last height junk) in
    write w f text) (FileClose f).

(** the try block of main.cpp:267-367 for a job (see [startMain]), the directory option and argv[0] *)
Definition convert (w : world) (junk argv0 directory : list Z) (j : job) : act unit :=
  let* isDir := (fun l => Ok (match wIsDirectory w l with Some b => Val b | None => Exn end,
                              l ++ [IsDirectory directory (match wIsDirectory w l with Some _ => true | None => false end)])) in
  let outputDir := if isDir : bool then directory else parentPath argv0 in
  let* library := described w (acquire (wInit w) FtInit) in
  scoped (
    let* _ := call (fun _ => FtPropertySet library) in
    let* face := described w (acquire (wNewFace w) (FtNewFace library (jobFont j))) in
    scoped (
      let* _ := described w (callOrThrow (wSetCharSize w) (FtSetCharSize face (jobCharSize j) 0 (jobDpi j) 0)) in
      let* t := readTable w face (jobEncoding j) firstChar (jobLast j) in
      if jobBinary j then writeBinary w outputDir (jobName j) t
      else
        let* _ := call (fun _ => ReadHeight face) in
        let* height := (fun l => lift (chk (Z.quot (wHeight w l) 64)) l) in
        writeHeader w junk (jobName j) outputDir (jobEncoding j) t firstChar (jobLast j) height)
      (FtDoneFace face))
    (FtDone library).

(** main.cpp:255-373: the exit code, or termination by an exception of [std::stoi] *)
Inductive ending := Exit (code : Z) | Aborted.
Definition runMain (w : world) (sg : bool) (junk argv0 : list Z) (args : list (list Z)) : res (ending * log) :=
  do s <- startMain sg args;
  match s with
  | Terminated => Ok (Aborted, [])
  | Usage => Ok (Exit 1, [])
  | Converts j =>
      do c <- parseConfig sg args;
      let directory := match c with Some c => outputDirectory c | None => [] end in
      do ' (o, l) <- convert w junk argv0 directory j [];
      Ok (match o with Val _ => Exit 0 | Exn => Exit 1 end, l)
  end.
