(** * Path.read_text and Path.write_text

    Models fake_pathlib.py: FakePath.read_text (533-540) and write_text
    (555-577).  Both open the file with [newline=None]; [cd] is the codec of the
    [encoding] argument.  The data is a str, for which the type check (570-572)
    passes.  The text layer and its simplifications are those of TextModel.v. *)
From Verif Require Export PathlibModel TextModel.

(** newline=None and buffering=-1 *)
Definition plib_mode (cd : codec) : tmode := mktm cd NlNone false.
Definition plib_read_text (cd : codec) (p : str) : M text :=
  w <- open_text (PStr p) (L "r") true ;;
  with_file w (text_read (plib_mode cd) w).
Definition plib_write_text (cd : codec) (p : str) (t : text) : M Z :=
  w <- open_text (PStr p) (L "w") true ;;
  with_file w (text_write (plib_mode cd) w t).
