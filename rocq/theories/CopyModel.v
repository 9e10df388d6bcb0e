(** * shutil.copyfileobj (CPython 3.8) on fake file objects
    (FakeFileWrapper.read and .write, fake_filesystem.py 4805-4945). *)
From Verif Require Export SysModel.

(** The loop of copyfileobj, with [len] not 0:
<<
    while True:
        buf = fsrc_read(length)
        if not buf:
            break
        fdst_write(buf)
>>
    [fuel] bounds the number of rounds, which Python does not; [RecErr] when it
    is used up. *)
Fixpoint copy_loop (fuel : nat) (src dst : wid) (len : Z) : M unit :=
  match fuel with
  | O => raise RecErr
  | S k =>
      buf <- file_read src len ;;
      match buf with
      | [] => ret tt
      | _ => file_write dst buf ;;; copy_loop k src dst len
      end
  end.
(** [if not length: length = COPY_BUFSIZE], which is 64 * 1024 on POSIX *)
Definition copyfileobj (fuel : nat) (src dst : wid) (length : Z) : M unit :=
  copy_loop fuel src dst (if Z.eqb length 0 then 65536%Z else length).
