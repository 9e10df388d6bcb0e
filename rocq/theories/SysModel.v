(** * Histories: every modelled API call as one step.

    [step] dispatches to the functions of OpsModel and IoModel; a history is a
    list of calls executed one after the other, each ending normally or with an
    exception. *)
From Verif Require Export IoModel.

Inductive op :=
| CreateFile (p : str) (mode : N) (contents : option str) (sz : option Z) (missing um : bool)
| CreateDir (p : str) (perm : N)
| CreateSymlink (p target : str) (missing : bool)
| CreateLink (old new : str) (follow missing : bool)
| Symlink (src dst : str)
| Link (src dst : str)
| Mkdir (p : str) (mode : N)
| Makedirs (p : str) (mode : N) (exist_ok : bool)
| Mknod (p : str) (mode : N) (device : Z)
| Remove (p : str)
| Rmdir (p : str)
| Removedirs (p : str)
| RemoveObject (p : str)
| Rename (old new : str) (force : bool)
| Chmod (a : parg) (mode : N) (follow : bool)
| LChmod (p : str) (mode : N)
| Utime (a : parg) (times ns : option (list Z)) (follow : bool)
| Chown (a : parg) (uid gid : Z) (follow : bool)
| Umask (m : N)
| Chdir (a : parg)
| SetXattr (a : parg) (k v : str) (flags : Z) (follow : bool)
| RemoveXattr (a : parg) (k : str) (follow : bool)
| Truncate (a : parg) (n : Z)
| Ftruncate (fd n : Z)
| AddMount (p : str) (total : option Z)
| SetDiskUsage (total : Z) (p : option str)
| GetDiskUsage (p : option str)
| SetContents (p : str) (c : str)
| Open (a : parg) (mode : str) (buffering : Z) (closefd : bool)
| OsOpen (p : str) (flags : N) (mode : option N) (uuid : str)
| OsClose (fd : Z)
| OsRead (fd n : Z)
| OsWrite (fd : Z) (data : str)
| OsPipe
| HRead (w : wid) (n : Z)
| HWrite (w : wid) (data : str)
| HSeek (w : wid) (off : Z) (whence : nat)
| HTell (w : wid)
| HTruncate (w : wid) (n : option Z)
| HFlush (w : wid)
| HClose (w : wid)
| SetUid (uid : Z)
| SetGid (gid : Z)
| Tick (now : Z).

Inductive out :=
| RUnit | RObj (o : oid) | RHandle (w : wid) | RInt (z : Z) | RBytes (b : str)
| RMode (m : N) | RPair (x y : Z) | RUsage (u : Z * Z * Z) | RPath (p : str).

Definition outm {A} (f : A -> out) (m : M A) : M out := x <- m ;; ret (f x).

(** fs.get_object(p).set_contents(c): get_object 2004-2021, set_contents 415-433 *)
Definition fs_set_contents (p c : str) : M unit :=
  o <- lift (fun s => get_object s p true) ;; set_contents o c ;;; ret tt.

(** flush of any wrapper: FakeFileWrapper 4750, FakePipeWrapper 5150 *)
Definition flush_wrapper (w : wid) : M unit :=
  x <- wget w ;;
  match w_kind x with
  | WFile => flush w
  | WPipe => ret tt
  | _ => raise AttrErr
  end.

Definition step (o : op) : M out :=
  match o with
  | CreateFile p mode c sz mi um => outm RObj (create_file p mode c sz mi um)
  | CreateDir p perm => outm RObj (create_dir p perm)
  | CreateSymlink p t mi => outm RObj (create_symlink p t mi)
  | CreateLink a b f mi => outm RObj (create_link a b f mi)
  | Symlink a b => outm (fun _ => RUnit) (os_symlink a b)
  | Link a b => outm (fun _ => RUnit) (os_link a b)
  | Mkdir p m => outm (fun _ => RUnit) (makedir p m)
  | Makedirs p m e => outm (fun _ => RUnit) (makedirs p m e)
  | Mknod p m d => outm (fun _ => RUnit) (mknod p m d)
  | Remove p => outm (fun _ => RUnit) (remove p)
  | Rmdir p => outm (fun _ => RUnit) (rmdir p false)
  | Removedirs p => outm (fun _ => RUnit) (removedirs p)
  | RemoveObject p => outm (fun _ => RUnit) (remove_object p)
  | Rename a b f => outm (fun _ => RUnit) (rename a b f)
  | Chmod a m f => outm (fun _ => RUnit) (chmod a m f)
  | LChmod p m => outm (fun _ => RUnit) (lchmod p m)
  | Utime a t n f => outm (fun _ => RUnit) (utime a t n f)
  | Chown a u g f => outm (fun _ => RUnit) (chown a u g f)
  | Umask m => outm RMode (umask m)
  | Chdir a => outm (fun _ => RUnit) (chdir a)
  | SetXattr a k v fl f => outm (fun _ => RUnit) (setxattr a k v fl f)
  | RemoveXattr a k f => outm (fun _ => RUnit) (removexattr a k f)
  | Truncate a n => outm (fun _ => RUnit) (os_truncate a n)
  | Ftruncate fd n => outm (fun _ => RUnit) (os_ftruncate fd n)
  | AddMount p t => outm RPath (add_mount_point p t)
  | SetDiskUsage t p => outm (fun _ => RUnit) (set_disk_usage t p)
  | GetDiskUsage p => outm RUsage (get_disk_usage p)
  | SetContents p c => outm (fun _ => RUnit) (fs_set_contents p c)
  | Open a m b cf => outm RHandle (open_ a m b cf)
  | OsOpen p fl m u => outm RInt (os_open p fl m u)
  | OsClose fd => outm (fun _ => RUnit) (os_close fd)
  | OsRead fd n => outm RBytes (os_read fd n)
  | OsWrite fd d => outm RInt (os_write fd d)
  | OsPipe => outm (fun p => RPair (fst p) (snd p)) os_pipe
  | HRead w n => outm RBytes (file_read w n)
  | HWrite w d => outm RInt (file_write w d)
  | HSeek w o wh => outm (fun _ => RUnit) (file_seek w o wh)
  | HTell w => outm RInt (file_tell w)
  | HTruncate w n => outm RInt (file_truncate w n)
  | HFlush w => outm (fun _ => RUnit) (flush_wrapper w)
  | HClose w => outm (fun _ => RUnit) (close_wrapper w)
  | SetUid u => outm (fun _ => RUnit) (modify (fun s => set_uid s u))
  | SetGid g => outm (fun _ => RUnit) (modify (fun s => set_gid s g))
  | Tick t => outm (fun _ => RUnit) (modify (fun s => set_now s t))
  end.

(** the state after a history, and the results of its calls *)
Fixpoint run (s : fs) (ops : list op) : fs :=
  match ops with [] => s | o :: ops' => run (snd (step o s)) ops' end.
Fixpoint outs (s : fs) (ops : list op) : list (res out) :=
  match ops with [] => [] | o :: ops' => fst (step o s) :: outs (snd (step o s)) ops' end.

(** states reachable from a freshly created filesystem of configuration [c] *)
Definition reachable (c : cfg) (s : fs) : Prop :=
  exists total um uid gid now ops, s = run (init c total um uid gid now) ops.
