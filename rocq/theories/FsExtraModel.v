(** * More of the public API: os.path.get*time, pathlib's samefile,
    shutil.disk_usage, FakeFilesystem.reset. *)
From Verif Require Export RealpathModel.

(** [except OSError: raise_os_error(ENOENT)] (the [winerror] of 3277 is not
    modelled) *)
Definition or_enoent {A} (r : res A) : res A :=
  match r with
  | Err (OSErr _) => Err (OSErr ENOENT)
  | r => r
  end.

(** FakePathModule.getmtime, 3262-3277 *)
Definition getmtime (s : fs) (p : str) : res Z :=
  or_enoent (let* o := resolve s p true in Ok (o_mtime (ob s o))).
(** FakePathModule.getatime, 3279-3297 *)
Definition getatime (s : fs) (p : str) : res Z :=
  or_enoent (let* o := resolve s p true in Ok (o_atime (ob s o))).
(** FakePathModule.getctime, 3299-3316 *)
Definition getctime (s : fs) (p : str) : res Z :=
  or_enoent (let* o := resolve s p true in Ok (o_ctime (ob s o))).

(** FakePath.samefile, fake_pathlib.py 593-610: [self.stat()] before
    [other.stat()]; for a string [filesystem.stat(other)], the same call *)
Definition plib_samefile (s : fs) (p q : str) : res bool :=
  let* a := stat s (PStr p) true in
  let* b := stat s (PStr q) true in
  Ok (opt_nat_eqb (ss_ino a) (ss_ino b) && opt_nat_eqb (ss_dev a) (ss_dev b)).
