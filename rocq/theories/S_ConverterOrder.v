(** What the font converter may ask of the libraries, and when: each call against the calls before it. *)
From Coq Require Import String.
From Verif Require Import Base M_Options M_FontText M_Converter S_Converter.
Open Scope Z_scope.
Open Scope list_scope.

Definition just_after (before : log) (e : event) : Prop := exists l, before = l ++ [e].
(** the face was scaled to the size and resolution of the job, without a separate height *)
Definition scaled (j : job) (face : nat) (before : log) : Prop :=
  In (FtSetCharSize face (jobCharSize j) 0 (jobDpi j) 0 true) before.
Definition file_opened (before : log) : Prop := exists p h, In (FileOpen p h) before.
Definition output_name (j : job) (name : list Z) : Prop :=
  if jobBinary j then name = jobName j ++ txt "Bitmaps.bin" \/ name = jobName j ++ txt "Glyphs.bin" else name = jobName j ++ txt ".h".
Definition in_turn (j : job) (directory argv0 : list Z) (before : log) (e : event) : Prop :=
  match e with
  | IsDirectory p _ => p = directory
  | FtNewFace library p _ => p = jobFont j /\ In (FtPropertySet library) before
  | FtSetCharSize _ w h hres vres _ => (w, h, hres, vres) = (jobCharSize j, 0, jobDpi j, 0)
  | FtLoadChar face _ _ => scaled j face before
  | FtRenderGlyph face _ => exists c, just_after before (FtLoadChar face c true)
  | FtGetGlyph face _ => just_after before (FtRenderGlyph face true)
  | ReadGlyph g _ => exists face, just_after before (FtGetGlyph face (Some g))
  | ReadHeight face => scaled j face before
  | IconvOpen to from _ => from = jobEncoding j /\
      (to = txt "UCS-4LE" /\ ~ file_opened before \/ to = txt "UTF-8" /\ file_opened before /\ jobBinary j = false)
  | FileOpen p _ => exists dir name, (dir = directory \/ directory_of argv0 dir) /\ output_name j name /\ path_in dir name p
  | _ => True
  end.
Definition all_in_turn (j : job) (directory argv0 : list Z) (l : log) : Prop :=
  forall before e after, l = before ++ e :: after -> in_turn j directory argv0 before e.
