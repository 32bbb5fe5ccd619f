(** What a run of the font converter should look like, from the record of its calls. *)
From Coq Require Import String.
From Verif Require Import Base S_Font M_Font M_Packing M_FontText M_Converter.
Open Scope Z_scope.
Open Scope list_scope.

(** the handle a call gives, and the handle it gives back *)
Definition opens (e : event) : option nat :=
  match e with
  | FtInit h | FtNewFace _ _ h | FtGetGlyph _ h | IconvOpen _ _ h | FileOpen _ h => h
  | _ => None
  end.
Definition closes (e : event) : option nat :=
  match e with
  | FileClose h | IconvClose h | FtDoneGlyph h | FtDoneFace h | FtDone h => Some h
  | _ => None
  end.
(** the handle a call works on *)
Definition works_on (e : event) : option nat :=
  match e with
  | FtPropertySet h | FtNewFace h _ _ | FtSetCharSize h _ _ _ _ _ | FtLoadChar h _ _ | FtRenderGlyph h _ | FtGetGlyph h _
  | ReadGlyph h _ | ReadHeight h | Iconv h _ | FileWrite h _ _ => Some h
  | _ => None
  end.
(** a library, a face, a glyph, a conversion or a file: every handle is given back by the function for its kind *)
Inductive kind := KLibrary | KFace | KGlyph | KIconv | KFile.
Definition opens_kind (e : event) : kind :=
  match e with FtInit _ => KLibrary | FtNewFace _ _ _ => KFace | FtGetGlyph _ _ => KGlyph | IconvOpen _ _ _ => KIconv | _ => KFile end.
Definition closes_kind (e : event) : kind :=
  match e with FtDone _ => KLibrary | FtDoneFace _ => KFace | FtDoneGlyph _ => KGlyph | IconvClose _ => KIconv | _ => KFile end.
Definition works_kind (e : event) : kind :=
  match e with
  | FtPropertySet _ | FtNewFace _ _ _ => KLibrary
  | FtSetCharSize _ _ _ _ _ _ | FtLoadChar _ _ _ | FtRenderGlyph _ _ | FtGetGlyph _ _ | ReadHeight _ => KFace
  | ReadGlyph _ _ => KGlyph
  | Iconv _ _ => KIconv
  | _ => KFile
  end.
(** the handles that are open after a call, the most recent one first: a call may only work on an open
    handle of its kind, a new handle is not open yet, and only the most recent one may be given back *)
Definition stack : Type := list (kind * nat).
Inductive step : stack -> event -> stack -> Prop :=
  | Closes s e h : closes e = Some h -> step ((closes_kind e, h) :: s) e s
  | Opens s e h : closes e = None -> (forall k, works_on e = Some k -> In (works_kind e, k) s) -> opens e = Some h ->
      ~ In h (map snd s) -> step s e ((opens_kind e, h) :: s)
  | Works s e : closes e = None -> opens e = None -> (forall k, works_on e = Some k -> In (works_kind e, k) s) -> step s e s.
Inductive steps : stack -> log -> stack -> Prop :=
  | Done s : steps s [] s
  | Step s e s' l t : step s e s' -> steps s' l t -> steps s (e :: l) t.
(** nothing is open before and after *)
Definition orderly (l : log) : Prop := steps [] l [].

(** the calls that failed; a failing write is not noticed by the program *)
Definition failed (e : event) : Prop :=
  match e with
  | IsDirectory _ ok | FtSetCharSize _ _ _ _ _ ok | FtLoadChar _ _ ok | FtRenderGlyph _ ok | ReadGlyph _ ok => ok = false
  | FtInit h | FtNewFace _ _ h | FtGetGlyph _ h | IconvOpen _ _ h | FileOpen _ h => h = None
  | _ => False
  end.
Definition gives_back (e : event) : Prop := closes e <> None.

(** the bytes written successfully to a file in the order of the calls: a stream that failed once takes
    nothing more *)
Fixpoint content (h : nat) (l : log) : list Z :=
  match l with
  | [] => []
  | FileWrite f b ok :: l => if Nat.eqb f h then if ok then b ++ content h l else [] else content h l
  | _ :: l => content h l
  end.
(** the files of a run: the paths in the order of opening, with what they contain at the end *)
Fixpoint files (l : log) : list (list Z * list Z) :=
  match l with
  | [] => []
  | FileOpen p (Some h) :: l => (p, content h l) :: files l
  | _ :: l => files l
  end.
(** the codes whose glyphs were asked for, in order *)
Fixpoint loaded (l : log) : list Z :=
  match l with
  | [] => []
  | FtLoadChar _ c true :: l => c :: loaded l
  | _ :: l => loaded l
  end.

(** [p] is the path of the file [name] in the directory [dir] *)
Definition path_in (dir name p : list Z) : Prop :=
  dir = [] /\ p = name \/ (exists d, dir = d ++ [47]) /\ p = dir ++ name \/
  dir <> [] /\ (~ exists d, dir = d ++ [47]) /\ p = dir ++ 47 :: name.
(** the directory of the program file: what stands before the '/'s in front of its name *)
Definition directory_of (program dir : list Z) : Prop :=
  ~ In 47 program /\ dir = [] \/
  (exists slashes name, program = dir ++ slashes ++ name /\ slashes <> [] /\ Forall (eq 47) slashes /\ ~ In 47 name /\
     dir <> [] /\ ~ (exists d, dir = d ++ [47])) \/
  exists slashes name, program = 47 :: slashes ++ name /\ Forall (eq 47) slashes /\ ~ In 47 name /\ dir = [47].

(** libraries with which every call succeeds and whose answers do not depend on what happened before:
    whether the directory is one, the conversions from [encoding] to UCS-4 and to UTF-8, the rendered
    characters and the height of the font in 1/64 *)
Definition steady (w : world) (encoding : list Z) (isDir : bool) (ucs utf : list Z -> iconvResult) (render : Z -> rendered) (height : Z) : Prop :=
  forall l,
    wIsDirectory w l = Some isDir /\
    wInit w l = true /\ wNewFace w l = true /\ wSetCharSize w l = true /\ wLoadChar w l = true /\ wRender w l = true /\
    wGetGlyph w l = true /\ wIsBitmap w l = true /\ wIconvOpen w l = true /\ wOpen w l = true /\ wWrite w l = true /\
    (forall c, wGlyph w l c = render c) /\ wHeight w l = height /\
    (forall input, wIconv w l (txt "UCS-4LE") encoding input = ucs input) /\
    (forall input, wIconv w l (txt "UTF-8") encoding input = utf input).

(** a failed call of FreeType whose error the program describes to the user *)
Definition to_describe (e : event) : Prop :=
  match e with
  | FtInit h | FtNewFace _ _ h => h = None
  | FtSetCharSize _ _ _ _ _ ok | FtLoadChar _ _ ok | FtRenderGlyph _ ok => ok = false
  | _ => False
  end.
(** in the calls [l]: an error for which FreeType has no text *)
Definition textless (w : world) (l : log) : Prop :=
  exists before e after, l = before ++ e :: after /\ to_describe e /\ wErrorText w (before ++ [e]) = false.
(** the same libraries with a FreeType that has a text for every error *)
Definition with_texts (w : world) : world :=
  mkWorld (wIsDirectory w) (wInit w) (wNewFace w) (wSetCharSize w) (wLoadChar w) (wRender w) (wGetGlyph w) (wIsBitmap w) (wGlyph w)
    (wHeight w) (wIconvOpen w) (wIconv w) (wOpen w) (wWrite w) (fun _ => true).
