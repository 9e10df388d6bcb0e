(** * Mutating functions of the fake filesystem.

    Models /repo/pyfakefs/fake_filesystem.py: FakeFile/FakeDirectory mutators
    (346-494, 647-757), mount points and disk usage (1023-1159), attributes
    (1217-1287), add_object ... rmdir (2098-3068) and the thin FakeOsModule
    wrappers (3787-4473). *)
From Verif Require Export FsModel.

(** ** State and exceptions: the state after an exception is kept *)
Definition M (A : Type) := fs -> res A * fs.
Definition ret {A} (a : A) : M A := fun s => (Ok a, s).
Definition raise {A} (e : exn) : M A := fun s => (Err e, s).
Definition raise_os {A} (e : errno) : M A := raise (OSErr e).
Definition bind {A B} (m : M A) (k : A -> M B) : M B :=
  fun s => match m s with
           | (Ok a, s') => k a s'
           | (Err e, s') => (Err e, s')
           end.
Notation "x <- m ;; k" := (bind m (fun x => k))
  (at level 61, m at next level, right associativity).
Notation "m ;;; k" := (bind m (fun _ => k)) (at level 61, right associativity).
Definition gets {A} (f : fs -> A) : M A := fun s => (Ok (f s), s).
Definition lift {A} (f : fs -> res A) : M A := fun s => (f s, s).
Definition modify (f : fs -> fs) : M unit := fun s => (Ok tt, f s).
Definition when (b : bool) (m : M unit) : M unit := if b then m else ret tt.
(** try: m except: h *)
Definition catch {A} (m : M A) (h : exn -> M A) : M A :=
  fun s => match m s with
           | (Ok a, s') => (Ok a, s')
           | (Err e, s') => h e s'
           end.

(** ** Objects *)

(** FakeStatResult.__init__ (helpers.py 77-93), FakeFile.__init__ (265-300) and
    FakeDirectory.__init__ (617-629: st_nlink starts at 1) *)
Definition fresh_obj (s : fs) (name : str) (mode : N) (b : body) : fobj :=
  mkobj name mode None None
        (match b with BDir _ => 1 | BFile _ => 0 end)%Z
        (f_uid s) (f_gid s)
        (match b with BFile (Some x) => Z.of_nat (length x) | _ => 0 end)%Z
        b 0 None (f_now s) (f_now s) (f_now s) [].

Definition alloc (name : str) (mode : N) (b : body) : M oid :=
  fun s => (Ok (f_next s),
            set_next (set_heap s (upd (f_heap s) (f_next s) (fresh_obj s name mode b)))
                     (S (f_next s))).
Definition new_file (name : str) (mode : N) : M oid := alloc name mode (BFile None).
Definition new_dir (name : str) (perm : N) : M oid := alloc name (N.lor S_IFDIR perm) (BDir []).

Definition mod_obj (o : oid) (f : fobj -> fobj) : M unit := modify (fun s => mod_ob s o f).

(** _mount_point_for_device, 1088-1091, and the update of [used_size] in
    change_disk_usage, 1139-1159 *)
Fixpoint mount_for_dev (ms : list (str * mount)) (dev : option nat) : option mount :=
  match ms with
  | [] => None
  | (_, m) :: ms' => if opt_nat_eqb (Some (m_idev m)) dev then Some m else mount_for_dev ms' dev
  end.
Fixpoint add_used (ms : list (str * mount)) (dev : option nat) (delta : Z) : list (str * mount) :=
  match ms with
  | [] => []
  | (k, m) :: ms' =>
      if opt_nat_eqb (Some (m_idev m)) dev
      then (k, mkmount (m_idev m) (m_total m) (m_used m + delta)%Z) :: ms'
      else (k, m) :: add_used ms' dev delta
  end.
Definition change_disk_usage (delta : Z) (dev : option nat) : M unit :=
  fun s =>
    match mount_for_dev (f_mounts s) dev with
    | None => (Ok tt, s)
    | Some m =>
        let s' := set_mounts s (add_used (f_mounts s) dev delta) in
        match m_total m with
        | Some t => if (t - m_used m <? delta)%Z then (os_err ENOSPC, s) else (Ok tt, s')
        | None => (Ok tt, s')
        end
    end.

(** truth value of [obj.contents] / [obj._byte_contents] *)
Definition truthy_contents (s : fs) (o : oid) : bool :=
  match o_body (ob s o) with
  | BDir [] => false
  | BDir _ => true
  | BFile None | BFile (Some []) => false
  | BFile (Some _) => true
  end.

(** size setter, 471-494; FakeDirectory.size (739) has no setter *)
Definition resize (b : str) (cur new : Z) : str :=
  if (new <? cur)%Z then firstn (Z.to_nat new) b
  else b ++ repeat "000"%char (Z.to_nat (new - cur)).
Definition set_size (o : oid) (n : Z) : M unit :=
  b <- gets (fun s => o_body (ob s o)) ;;
  match b with
  | BDir _ => raise AttrErr
  | BFile data =>
      if (n <? 0)%Z then raise_os ENOSPC else
      cur <- gets (fun s => st_size s o) ;;
      dev <- gets (fun s => o_dev (ob s o)) ;;
      change_disk_usage (n - cur) dev ;;;
      mod_obj o (fun x =>
        let x := match data with
                 | Some (c :: d) => wo_body x (BFile (Some (resize (c :: d) cur n)))
                 | _ => x
                 end in
        wo_epoch (wo_size x n) (S (o_epoch x)))
  end.

(** _set_initial_contents, 387-413 (encoding aside), and the override of
    FakeNullFile, 565-566 ([None] is falsy) *)
Definition body_neqb (b : body) (c : str) : bool :=
  match b with BFile (Some d) => negb (str_eqb d c) | _ => true end.
Definition set_initial_contents (o : oid) (c : str) : M bool :=
  if Nat.eqb o devnull_oid then ret false else
  changed <- gets (fun s => body_neqb (o_body (ob s o)) c) ;;
  cur <- gets (fun s => st_size s o) ;;
  dev <- gets (fun s => o_dev (ob s o)) ;;
  change_disk_usage (Z.of_nat (length c) - cur) dev ;;;
  t <- gets (fun s => truthy_contents s o) ;;
  when t (set_size o 0) ;;;
  mod_obj o (fun x => wo_epoch (wo_size (wo_body x (BFile (Some c))) (Z.of_nat (length c))) (S (o_epoch x))) ;;;
  ret changed.

(** set_large_file_size, 346-367 *)
Definition set_large_file_size (o : oid) (n : Z) : M unit :=
  if (n <? 0)%Z then raise_os ENOSPC else
  cur <- gets (fun s => st_size s o) ;;
  when (negb (Z.eqb cur 0)) (set_size o 0) ;;;
  dev <- gets (fun s => o_dev (ob s o)) ;;
  change_disk_usage n dev ;;;
  mod_obj o (fun x => wo_body (wo_size x n) (BFile None)).

(** ** Directory entries *)

(** FakeDirectory.add_entry, 647-675 *)
Definition link_obj (d o : oid) : M unit :=
  nm <- gets (fun s => o_name (ob s o)) ;;
  mod_obj d (fun x => match o_body x with
                      | BDir es => wo_body x (BDir (es ++ [(nm, o)]))
                      | BFile _ => x
                      end) ;;;
  mod_obj o (fun x => wo_parent x (Some d)) ;;;
  i <- gets (fun s => o_ino (ob s o)) ;;
  match i with
  | None => modify (fun s => set_ino s (S (f_ino s))) ;;;
            n <- gets f_ino ;;
            mod_obj o (fun x => wo_ino x (Some n))
  | Some _ => ret tt
  end ;;;
  mod_obj d (fun x => wo_nlink x (o_nlink x + 1)%Z) ;;;
  mod_obj o (fun x => wo_nlink x (o_nlink x + 1)%Z) ;;;
  dev <- gets (fun s => o_dev (ob s d)) ;;
  mod_obj o (fun x => wo_dev x dev).
Definition add_entry (d o : oid) : M unit :=
  isd <- gets (fun s => is_dirobj s d) ;;
  if negb isd then raise AttrErr else
  denied <- gets (fun s => negb (is_root s) && negb (has_bit (o_mode (ob s d)) PERM_WRITE)
                           && negb (c_win (f_cfg s))) ;;
  if denied : bool then raise_os EACCES else
  dup <- gets (fun s => match assoc (o_name (ob s o)) (ents s d) with Some _ => true | None => false end) ;;
  if dup : bool then raise_os EEXIST else
  link_obj d o ;;;
  first <- gets (fun s => Z.eqb (o_nlink (ob s o)) 1) ;;
  if first : bool then
    sz <- gets (fun s => obj_size (S (f_next s)) s o) ;;
    dev <- gets (fun s => o_dev (ob s d)) ;;
    change_disk_usage sz dev
  else ret tt.

(** the loop 727-728 of remove_entry; [k] is the number of entries *)
Fixpoint rm_loop (rm : str -> M unit) (k : nat) (e : oid) : M unit :=
  es <- gets (fun s => ents s e) ;;
  match es with
  | [] => ret tt
  | (n, _) :: _ =>
      match k with
      | O => raise RecErr
      | S k' => rm n ;;; rm_loop rm k' e
      end
  end.

(** lines 733-737 *)
Definition unlink_obj (d e : oid) (nm : str) : M unit :=
  mod_obj d (fun x => wo_nlink x (o_nlink x - 1)%Z) ;;;
  mod_obj e (fun x => wo_nlink x (o_nlink x - 1)%Z) ;;;
  n <- gets (fun s => o_nlink (ob s e)) ;;
  if (n <? 0)%Z then raise AssertErr else
  mod_obj d (fun x => match o_body x with
                      | BDir es => wo_body x (BDir (del_assoc nm es))
                      | BFile _ => x
                      end).

(** FakeDirectory.remove_entry, 700-737 *)
Fixpoint remove_entry_n (fuel : nat) (d : oid) (name : str) (recursive : bool) : M unit :=
  match fuel with
  | O => raise RecErr
  | S n =>
      nm <- gets (fun s => normalized_entryname s d name) ;;
      e <- lift (fun s => get_entry s d nm) ;;
      win <- gets (fun s => c_win (f_cfg s)) ;;
      denied <- gets (fun s =>
        if c_win (f_cfg s)
        then negb (has_bit (o_mode (ob s e)) PERM_WRITE) || has_open_file s e
        else negb (is_root s) &&
             negb (N.eqb (N.land (o_mode (ob s d)) (N.lor PERM_WRITE PERM_EXE)) (N.lor PERM_WRITE PERM_EXE))) ;;
      if denied : bool then raise_os EACCES else
      isd <- gets (fun s => is_dirobj s e) ;;
      (if recursive && isd then
         k <- gets (fun s => length (ents s e)) ;;
         rm_loop (fun m => remove_entry_n n e m true) k e
       else
         last <- gets (fun s => Z.eqb (o_nlink (ob s e)) 1) ;;
         if last : bool then
           sz <- gets (fun s => obj_size (S (f_next s)) s e) ;;
           dev <- gets (fun s => o_dev (ob s e)) ;;
           change_disk_usage (- sz) dev
         else ret tt) ;;;
      unlink_obj d e nm
  end.
Definition remove_entry (d : oid) (name : str) (recursive : bool) : M unit :=
  fun s => remove_entry_n (S (f_next s)) d name recursive s.

(** has_parent_object, 749-757 *)
Fixpoint has_parent_n (fuel : nat) (s : fs) (o anc : oid) : res bool :=
  if Nat.eqb o anc then Ok true else
  match o_parent (ob s o) with
  | None => Ok false
  | Some d => match fuel with O => Err RecErr | S n => has_parent_n n s d anc end
  end.
Definition has_parent_object (s : fs) (o anc : oid) : res bool :=
  if is_dirobj s o then has_parent_n (S (f_next s)) s o anc else Err AttrErr.

(** ** Adding and removing by path *)

(** add_object, 2098-2116 *)
Definition add_object (dirp : str) (o : oid) : M unit :=
  d <- (if str_eqb dirp [] then ret root_oid
        else
          d <- lift (fun s => resolve s dirp true) ;;
          isd <- gets (fun s => S_ISDIR (o_mode (ob s d))) ;;
          win <- gets (fun s => c_win (f_cfg s)) ;;
          if negb isd then raise_os (if win : bool then ENOENT else ENOTDIR) else ret d) ;;
  add_entry d o.

(** remove_object, 2286-2307 *)
Definition remove_object (p : str) : M unit :=
  fp <- gets (fun s => anp s (original_path s p)) ;;
  isroot <- gets (fun s => is_root_path (f_cfg s) fp) ;;
  if isroot : bool then raise_os EBUSY else
  catch
    (hd <- gets (fun s => splitpath (f_cfg s) fp) ;;
     d <- lift (fun s => resolve s (fst hd) false) ;;
     isd <- gets (fun s => is_dirobj s d) ;;
     if negb isd then raise AttrErr else
     remove_entry d (snd hd) true)
    (fun e => match e with
              | KeyErr => raise_os ENOENT
              | AttrErr => raise_os ENOTDIR
              | _ => raise e
              end).

(** ** Mount points and create_dir (mutually recursive on Windows) *)

(** the loop 1076-1081 of _mount_point_for_path *)
Definition longest_mount (path drive : str) (ms : list (str * mount)) : str :=
  fold_left (fun best kv =>
    let k := fst kv in
    if negb (starts_with drive k) then best
    else if starts_with k path && Nat.ltb (length best) (length k) then k else best) ms [].

Section CreateDir.
Variable create_dir_rec : str -> N -> M oid.

(** add_mount_point, 1023-1054 *)
Definition add_mount_point_ (p : str) (total : option Z) : M str :=
  path <- gets (fun s => anp s p) ;;
  dup <- gets (fun s => match assoc path (f_mounts s) with Some _ => true | None => false end) ;;
  if dup : bool then raise_os EEXIST else
  modify (fun s => set_dev s (S (f_dev s))) ;;;
  dev <- gets f_dev ;;
  modify (fun s => set_mounts s (f_mounts s ++ [(path, mkmount dev total 0)])) ;;;
  isroot <- gets (fun s => str_eqb path (o_name (ob s root_oid))) ;;
  rd <- (if isroot : bool then
           modify (fun s => set_ino s (S (f_ino s))) ;;;
           i <- gets f_ino ;;
           mod_obj root_oid (fun x => wo_ino x (Some i)) ;;; ret root_oid
         else create_dir_rec path PERM_DEF) ;;
  dev2 <- gets f_dev ;;
  mod_obj rd (fun x => wo_dev x (Some dev2)) ;;;
  ret path.

(** _auto_mount_drive_if_needed(path, force=True), 1056-1061 *)
Definition auto_mount_force (path : str) : M (option str) :=
  c <- gets f_cfg ;;
  if c_win c then
    let drive := fst (splitdrive c path) in
    if nonempty drive then p <- add_mount_point_ drive None ;; ret (Some p)
    else ret None
  else ret None.

(** _mount_point_for_path, 1063-1086: the key of the mount point *)
Definition mount_point_for_path_ (p : str) : M str :=
  path <- gets (fun s => anp s (original_path s p)) ;;
  ms <- gets f_mounts ;;
  c <- gets f_cfg ;;
  match assoc path ms with
  | Some _ => ret path
  | None =>
      let k := longest_mount path (fst (splitdrive c path)) ms in
      if nonempty k then ret k
      else
        r <- auto_mount_force path ;;
        match r with Some k => ret k | None => raise AssertErr end
  end.

(** _auto_mount_drive_if_needed(path), 1056-1061 *)
Definition auto_mount (path : str) : M unit :=
  c <- gets f_cfg ;;
  if c_win c then mount_point_for_path_ path ;;; ret tt else ret tt.

(** the loop 2339-2351 of create_dir *)
Fixpoint create_dirs (cur : oid) (new : list oid) (comps : list str) : M (oid * list oid) :=
  match comps with
  | [] => ret (cur, new)
  | comp :: rest =>
      dc <- gets (fun s => directory_content s cur comp) ;;
      match dc with
      | None =>
          nd <- new_dir comp PERM_DEF ;;
          add_entry cur nd ;;;
          create_dirs nd (new ++ [nd]) rest
      | Some (_, o) =>
          lnk <- gets (fun s => S_ISLNK (o_mode (ob s o))) ;;
          d <- (if lnk : bool
                then lift (fun s => let* t := text_contents s o in resolve s t true)
                else ret o) ;;
          bad <- gets (fun s => negb (N.eqb (N.land (o_mode (ob s d)) S_IFDIR) S_IFDIR)) ;;
          if bad : bool then raise_os ENOTDIR else create_dirs d new rest
      end
  end.

(** lines 2355-2356 *)
Fixpoint set_modes (mode : N) (new : list oid) : M unit :=
  match new with
  | [] => ret tt
  | o :: new' => mod_obj o (fun x => wo_mode x mode) ;;; set_modes mode new'
  end.

(** create_dir, 2315-2358 *)
Definition create_dir_body (p : str) (perm : N) : M oid :=
  dp <- gets (fun s => anp s (make_string_path (f_cfg s) p)) ;;
  auto_mount dp ;;;
  e <- lift (fun s => exists_ s dp true) ;;
  if e : bool then raise_os EEXIST else
  comps <- gets (fun s => path_components (f_cfg s) dp) ;;
  r <- create_dirs root_oid [] comps ;;
  set_modes (N.lor S_IFDIR perm) (snd r) ;;;
  ret (fst r).
End CreateDir.

(** The recursion create_dir -> _auto_mount_drive_if_needed ->
    add_mount_point -> create_dir is only taken for a Windows filesystem and
    stops at the second level: the drive is a mount point by then. *)
Fixpoint create_dir_n (fuel : nat) (p : str) (perm : N) : M oid :=
  match fuel with
  | O => raise RecErr
  | S n => create_dir_body (create_dir_n n) p perm
  end.
Definition create_dir (p : str) (perm : N) : M oid := create_dir_n 3 p perm.
Definition add_mount_point (p : str) (total : option Z) : M str := add_mount_point_ create_dir p total.
Definition mount_point_for_path (p : str) : M str := mount_point_for_path_ create_dir p.
Definition auto_mount_drive (p : str) : M unit := auto_mount create_dir p.

(** get_disk_usage, 1093-1115: (total, used, free) *)
Definition disk_usage_of (m : mount) : Z * Z * Z :=
  match m_total m with
  | Some t => (t, m_used m, (t - m_used m)%Z)
  | None => (1099511627776, 0, 1099511627776)%Z
  end.
Definition get_disk_usage (p : option str) : M (Z * Z * Z) :=
  k <- match p with
       | None => gets (fun s => o_name (ob s root_oid))
       | Some p => mount_point_for_path p
       end ;;
  m <- gets (fun s => assoc k (f_mounts s)) ;;
  match m with Some m => ret (disk_usage_of m) | None => raise KeyErr end.

(** set_disk_usage, 1117-1137 *)
Definition set_disk_usage (total : Z) (p : option str) : M unit :=
  p <- match p with None => gets (fun s => o_name (ob s root_oid)) | Some p => ret p end ;;
  k <- mount_point_for_path p ;;
  m <- gets (fun s => assoc k (f_mounts s)) ;;
  match m with
  | None => raise KeyErr
  | Some m =>
      if match m_total m with Some _ => (total <? m_used m)%Z | None => false end
      then raise_os ENOSPC
      else modify (fun s => set_mounts s (set_assoc k (mkmount (m_idev m) (Some total) (m_used m)) (f_mounts s)))
  end.

(** ** Creating files, links and directories *)

(** create_file_internally, 2560-2633 *)
Definition fill_file (o : oid) (contents : option str) (sz : option Z) : M unit :=
  match sz, contents with
  | Some n, _ => set_large_file_size o n
  | None, Some c => set_initial_contents o c ;;; ret tt
  | None, None => set_initial_contents o [] ;;; ret tt
  end.
Definition create_file_internally (p : str) (mode : N) (contents : option str)
    (sz : option Z) (missing_dirs apply_umask : bool) : M oid :=
  fp <- gets (fun s => anp s (make_string_path (f_cfg s) p)) ;;
  e <- lift (fun s => exists_ s fp true) ;;
  if e : bool then raise_os EEXIST else
  sp <- gets (fun s => splitpath (f_cfg s) fp) ;;
  pd <- gets (fun s => if str_eqb (fst sp) [] then f_cwd s else fst sp) ;;
  auto_mount_drive pd ;;;
  pe <- lift (fun s => exists_ s pd false) ;;
  pd' <- (if negb pe then
            if negb missing_dirs then raise_os ENOENT
            else create_dir pd PERM_DEF ;;; ret pd
          else gets (fun s => original_path s pd)) ;;
  mode' <- gets (fun s => if apply_umask then N.ldiff mode (f_umask s) else mode) ;;
  o <- new_file (snd sp) mode' ;;
  add_object pd' o ;;;
  catch (fill_file o contents sz)
        (fun e => match e with
                  | OSErr _ => remove_object fp ;;; raise e
                  | _ => raise e
                  end) ;;;
  ret o.

(** create_file, 2360-2395 *)
Definition create_file (p : str) (mode : N) (contents : option str) (sz : option Z)
    (missing_dirs apply_umask : bool) : M oid :=
  create_file_internally p mode contents sz missing_dirs apply_umask.

(** create_symlink, 2635-2684 *)
Definition create_symlink (p target : str) (missing_dirs : bool) : M oid :=
  c <- gets f_cfg ;;
  let fp := make_string_path c p in
  let tg := make_string_path c target in
  let fp := normcase c fp in
  (if ends_with_path_separator c fp then
     e1 <- lift (fun s => exists_ s fp false) ;;
     if e1 : bool then raise_os EEXIST else
     e2 <- lift (fun s => exists_ s tg false) ;;
     if e2 : bool then when (negb (c_win c)) (raise_os ENOENT)
     else if c_win c then raise_os EINVAL
     else
       e3 <- lift (fun s => exists_ s (path_without_trailing_separators c fp) true) ;;
       if negb e3 then raise_os ENOENT
       else if c_mac c then
         e4 <- lift (fun s => exists_ s fp true) ;;
         when e4 (remove_object fp)
       else raise_os EEXIST
   else ret tt) ;;;
  il <- lift (fun s => islink s fp) ;;
  fp' <- (if il : bool then ret fp else lift (fun s => resolve_path s fp)) ;;
  create_file_internally fp' (N.lor S_IFLNK PERM_DEF) (Some tg) None missing_dirs false.

(** FakeOsModule.symlink(src, dst), 4437-4451 *)
Definition os_symlink (src dst : str) : M unit := create_symlink dst src false ;;; ret tt.

(** create_link, 2686-2742 *)
Definition create_link (old new : str) (follow missing_dirs : bool) : M oid :=
  c <- gets f_cfg ;;
  np <- gets (fun s => anp s new) ;;
  e <- lift (fun s => exists_ s np true) ;;
  if e : bool then raise_os EEXIST else
  let sp := splitpath c np in
  nd <- gets (fun s => if str_eqb (fst sp) [] then f_cwd s else fst sp) ;;
  pe <- lift (fun s => exists_ s nd false) ;;
  (if negb pe then
     if missing_dirs then create_dir nd PERM_DEF ;;; ret tt else raise_os ENOENT
   else ret tt) ;;;
  if ends_with_path_separator c old then raise_os (if c_win c then EINVAL else ENOTDIR) else
  if negb (c_win c) && ends_with_path_separator c new then raise_os ENOENT else
  o <- catch (lift (fun s => resolve_follow s old follow true))
             (fun e => match e with OSErr _ => raise_os ENOENT | _ => raise e end) ;;
  isd <- gets (fun s => has_bit (o_mode (ob s o)) S_IFDIR) ;;
  if isd : bool then raise_os (if c_win c then EACCES else EPERM) else
  mod_obj o (fun x => wo_name x (snd sp)) ;;;
  add_object nd o ;;;
  ret o.

(** link, 2744-2762, and FakeOsModule.link, 4453-4473 *)
Definition os_link (src dst : str) : M unit := create_link src dst true false ;;; ret tt.

(** makedir, 2808-2852; FakeOsModule.mkdir, 4193-4214 only rewords EACCES *)
Definition makedir (p : str) (mode : N) : M unit :=
  c <- gets f_cfg ;;
  let ews := ends_with_path_separator c p in
  let dn := path_without_trailing_separators c p in
  if str_eqb dn [] then raise_os ENOENT else
  dn <- gets (fun s => if c_win c then anp s dn else dn) ;;
  let parent := fst (splitpath c dn) in
  (if negb (str_eqb parent []) then
     let ell := [c_sep c; dotc; dotc] in
     let base := if ends_with ell parent && negb (c_win c)
                 then partition_pre ell parent
                 else normpath c parent in
     e <- lift (fun s => exists_ s base false) ;;
     if negb e then raise_os ENOENT else ret tt
   else ret tt) ;;;
  dn <- gets (fun s => anp s dn) ;;
  e <- lift (fun s => exists_ s dn true) ;;
  (if e : bool then
     let err := if c_win c && str_eqb dn [c_sep c] then EACCES else EEXIST in
     e2 <- (if ews && c_mac c then lift (fun s => exists_ s dn false) else ret true) ;;
     if ews && c_mac c && negb e2 then remove_object dn
     else raise_os err
   else ret tt) ;;;
  let ht := splitpath c dn in
  perm <- gets (fun s => N.ldiff mode (f_umask s)) ;;
  o <- new_dir (snd ht) perm ;;
  add_object (fst ht) o.

(** the loop 2890-2896 of makedirs: [component not in contents] raises
    TypeError when contents is None *)
Fixpoint makedirs_scan (s : fs) (cur : oid) (comps : list str) : res unit :=
  match comps with
  | [] => Ok tt
  | comp :: rest =>
      match o_body (ob s cur) with
      | BDir es => match assoc comp es with
                   | Some o => makedirs_scan s o rest
                   | None => Ok tt
                   end
      | BFile None => Err TypeErr
      | BFile (Some _) => Ok tt
      end
  end.

(** makedirs, 2859-2907; FakeOsModule.makedirs, 4216-4233 *)
Definition makedirs (p : str) (mode : N) (exist_ok : bool) : M unit :=
  c <- gets f_cfg ;;
  if str_eqb p [] then raise_os ENOENT else
  let ews := ends_with_path_separator c p in
  dn <- gets (fun s => anp s p) ;;
  (if ews && c_mac c then
     e1 <- lift (fun s => exists_ s dn true) ;;
     e2 <- (if e1 : bool then lift (fun s => exists_ s dn false) else ret true) ;;
     if e1 && negb e2 then remove_object dn else ret tt
   else ret tt) ;;;
  lift (fun s => makedirs_scan s root_oid (path_components c dn)) ;;;
  perm <- gets (fun s => N.ldiff mode (f_umask s)) ;;
  catch (create_dir dn perm ;;; ret tt)
    (fun e => match e with
              | OSErr EACCES => raise e
              | OSErr en =>
                  bad <- (if negb exist_ok then ret true
                          else o <- lift (fun s => resolve s dn true) ;;
                               gets (fun s => negb (is_dirobj s o))) ;;
                  if bad : bool
                  then raise_os (match c_win c, en with true, ENOTDIR => ENOENT | _, _ => en end)
                  else ret tt
              | _ => raise e
              end).

(** FakeOsModule.mknod, 4394-4435 ([raise (AttributeError, ...)] is a
    TypeError in Python 3) *)
Definition mknod (p : str) (mode : N) (device : Z) : M unit :=
  c <- gets f_cfg ;;
  if c_win c then raise TypeErr else
  root <- gets is_root ;;
  if negb (Z.eqb device 0) || (negb (has_bit mode S_IFREG) && negb root) then raise_os EPERM else
  let ht := splitpath c p in
  if str_eqb (snd ht) [] then
    e <- lift (fun s => exists_ s (fst ht) true) ;;
    raise_os (if e : bool then EEXIST else ENOENT)
  else if str_eqb (snd ht) dot || str_eqb (snd ht) dotdot then raise_os ENOENT
  else
    e <- lift (fun s => exists_ s p true) ;;
    if e : bool then raise_os EEXIST else
    m <- gets (fun s => N.ldiff mode (f_umask s)) ;;
    o <- new_file (snd ht) m ;;
    add_object (fst ht) o.

(** ** Removing *)

(** _handle_broken_link_with_trailing_sep, 2188-2194 *)
Definition handle_broken_link (p : str) : M unit :=
  c <- gets f_cfg ;;
  l <- lift (fun s => islink s p) ;;
  if l : bool then
    e <- lift (fun s => exists_ s p false) ;;
    if negb e then raise_os (if c_mac c then ENOENT else if c_win c then EINVAL else ENOTDIR)
    else ret tt
  else ret tt.

(** remove, 2998-3037; FakeOsModule.remove / unlink, 4062-4092 *)
Definition remove (p : str) : M unit :=
  c <- gets f_cfg ;;
  np <- gets (fun s => anp s p) ;;
  when (ends_with_path_separator c p) (handle_broken_link np) ;;;
  e <- lift (fun s => exists_ s np false) ;;
  (if e : bool then
     o <- lift (fun s => resolve s np false) ;;
     isd <- gets (fun s => S_ISDIR (o_mode (ob s o))) ;;
     if isd : bool then
       l <- lift (fun s => lresolve s np) ;;
       isl <- gets (fun s => S_ISLNK (o_mode (ob s l))) ;;
       if negb isl then raise_os (if c_win c then EACCES else if c_mac c then EPERM else EISDIR)
       else if ends_with_char (c_sep c) p
       then raise_os (if c_win c then EACCES else if c_mac c then EPERM else ENOTDIR)
       else ret tt
     else lift (fun s => raise_for_sep s p o true false)
   else ret tt) ;;;
  remove_object np.

(** rmdir, 3039-3068 *)
Definition rmdir (p : str) (allow_symlink : bool) : M unit :=
  c <- gets f_cfg ;;
  if str_eqb p dot then raise_os (if c_win c then EACCES else EINVAL) else
  let ews := ends_with_path_separator c p in
  dn <- gets (fun s => anp s p) ;;
  lift (fun s => confirmdir s dn) ;;;
  l <- (if c_win c then ret false else lift (fun s => islink s dn)) ;;
  if l && allow_symlink then ret tt else
  if l && (negb ews || negb (c_mac c)) then raise_os ENOTDIR else
  d <- lift (fun s => resolve s dn true) ;;
  t <- gets (fun s => truthy_contents s d) ;;
  if t : bool then raise_os ENOTEMPTY else remove_object dn.

(** FakeOsModule.removedirs, 4165-4191 *)
Fixpoint removedirs_loop (fuel : nat) (head tail : str) : M unit :=
  if nonempty head && nonempty tail then
    match fuel with
    | O => raise RecErr
    | S n =>
        d <- lift (fun s => confirmdir s head) ;;
        t <- gets (fun s => truthy_contents s d) ;;
        if t : bool then ret tt else
        rmdir head true ;;;
        c <- gets f_cfg ;;
        let ht := splitpath c head in
        removedirs_loop n (fst ht) (snd ht)
    end
  else ret tt.
Definition removedirs (p : str) : M unit :=
  c <- gets f_cfg ;;
  name <- gets (fun s => anp s p) ;;
  d <- lift (fun s => confirmdir s name) ;;
  t <- gets (fun s => truthy_contents s d) ;;
  if t : bool then raise_os ENOTEMPTY else
  rmdir name false ;;;
  let ht := splitpath c name in
  let ht := if nonempty (snd ht) then ht else splitpath c (fst ht) in
  removedirs_loop (S (length name)) (fst ht) (snd ht).

(** ** Renaming *)

(** _handle_posix_dir_link_errors, 2196-2209 *)
Definition posix_dir_link_errors (new old : str) (ews : bool) : M unit :=
  c <- gets f_cfg ;;
  d1 <- lift (fun s => isdir s old false) ;;
  l1 <- (if d1 : bool then lift (fun s => islink s new) else ret false) ;;
  if l1 : bool then raise_os ENOTDIR else
  d2 <- lift (fun s => isdir s new false) ;;
  l2 <- (if d2 : bool then lift (fun s => islink s old) else ret false) ;;
  if l2 : bool then
    if ews && c_mac c then ret tt
    else raise_os (if ews then ENOTDIR else EISDIR)
  else
    l3 <- (if ews then lift (fun s => islink s old) else ret false) ;;
    if ews && l3 && str_eqb old new && negb (c_win c) then raise_os ENOTDIR else ret tt.

(** os.path.basename of the real (Linux) os module, used at 2265 *)
Definition posix_basename (p : str) : str := snd (splitpath posix_cfg p).

(** _rename_same_object, 2252-2284 *)
Definition rename_same_object (new old : str) : M (option str) :=
  c <- gets f_cfg ;;
  if str_eqb (lower old) (lower new) then ret (Some new) else
  catch
    (ro <- lift (fun s => resolve_path s old) ;;
     oo <- gets (fun s => original_path s ro) ;;
     rn <- lift (fun s => resolve_path s new) ;;
     dr <- (if str_eqb rn oo && Bool.eqb (str_eqb new ro) (str_eqb (lower new) (lower ro))
            then
              r <- lift (fun s => lresolve s old) ;;
              gets (fun s => str_eqb (posix_basename old) (o_name (ob s r)) || negb (c_mac c))
            else ret (str_eqb (lower rn) (lower ro))) ;;
     if dr : bool then
       let pf := splitpath c new in
       op <- gets (fun s => original_path s (fst pf)) ;;
       match joinpaths c [op; snd pf] with
       | Some j => ret (Some j)
       | None => raise AssertErr
       end
     else ret None)
    (fun e => match e with OSErr _ => ret None | _ => raise e end).

(** _handle_rename_error_for_dir_or_link, 2236-2250 *)
Definition rename_error_for_dir_or_link (force : bool) (newo oldo : oid) (ews : bool) : M unit :=
  c <- gets f_cfg ;;
  if c_win c then raise_os (if force then EACCES else EEXIST) else
  nl <- gets (fun s => S_ISLNK (o_mode (ob s newo))) ;;
  if nl : bool then ret tt else
  t <- gets (fun s => truthy_contents s newo) ;;
  ol <- gets (fun s => S_ISLNK (o_mode (ob s oldo))) ;;
  if t && (negb ol || negb ews || negb (c_mac c)) then raise_os ENOTEMPTY else
  reg <- gets (fun s => S_ISREG (o_mode (ob s oldo))) ;;
  if reg : bool then raise_os EISDIR else ret tt.

(** _rename_to_existing_path, 2211-2234 *)
Definition rename_to_existing (force : bool) (new old : str) (oldo : oid) (ews : bool)
    : M (option str) :=
  c <- gets f_cfg ;;
  newo <- lift (fun s => get_object s new true) ;;
  nm <- gets (fun s => o_mode (ob s newo)) ;;
  om <- gets (fun s => o_mode (ob s oldo)) ;;
  if str_eqb old new then
    if negb (S_ISLNK nm) && ews then raise_os (if c_win c then EINVAL else ENOTDIR)
    else ret None
  else if Nat.eqb oldo newo then rename_same_object new old
  else if S_ISDIR nm || S_ISLNK nm then
    rename_error_for_dir_or_link force newo oldo ews ;;; ret (Some new)
  else if S_ISDIR om then raise_os (if c_win c then EEXIST else ENOTDIR)
  else if c_win c && negb force then raise_os EEXIST
  else remove_object new ;;; ret (Some new).

(** the last part of rename, 2164-2186 *)
Definition rename_move (old new : str) (oldo : oid) : M unit :=
  c <- gets f_cfg ;;
  let od := splitpath c old in
  let nd := splitpath c new in
  e <- lift (fun s => exists_ s (fst nd) false) ;;
  if negb e then raise_os ENOENT else
  odo <- lift (fun s => resolve s (fst od) true) ;;
  ndo <- lift (fun s => resolve s (fst nd) true) ;;
  same <- gets (fun s => opt_nat_eqb (o_dev (ob s odo)) (o_dev (ob s ndo))) ;;
  if negb same then raise_os EXDEV else
  isd <- gets (fun s => S_ISDIR (o_mode (ob s ndo))) ;;
  if negb isd then raise_os (if c_win c then EACCES else ENOTDIR) else
  hp <- lift (fun s => has_parent_object s ndo oldo) ;;
  if hp : bool then raise_os EINVAL else
  o <- lift (fun s => get_entry s odo (snd od)) ;;
  remove_entry odo (snd od) false ;;;
  mod_obj o (fun x => wo_name x (snd nd)) ;;;
  nn <- gets (fun s => normalized_entryname s ndo (snd nd)) ;;
  there <- gets (fun s => match assoc nn (ents s ndo) with Some _ => true | None => false end) ;;
  when there (remove_entry ndo nn true) ;;;
  add_entry ndo o.

(** rename, 2118-2186; FakeOsModule.rename / replace, 4094-4148 *)
Definition rename (oldp newp : str) (force : bool) : M unit :=
  c <- gets f_cfg ;;
  let ews := ends_with_path_separator c oldp in
  old <- gets (fun s => anp s oldp) ;;
  new <- gets (fun s => anp s newp) ;;
  e <- lift (fun s => exists_ s old true) ;;
  if negb e then raise_os ENOENT else
  when ews (handle_broken_link old) ;;;
  oldo <- lift (fun s => lresolve s old) ;;
  when (negb (c_win c)) (posix_dir_link_errors new old ews) ;;;
  e2 <- lift (fun s => exists_ s new true) ;;
  new' <- (if e2 : bool then rename_to_existing force new old oldo ews else ret (Some new)) ;;
  match new' with
  | None | Some [] => ret tt
  | Some n => rename_move old n oldo
  end.

(** ** Attributes *)

(** chmod, 1217-1235; FakeOsModule.chmod, 4311-4323. 
    0o222 = 146, 0o777555 = 261997. *)
Definition chmod_mode (c : cfg) (old mode : N) : N :=
  if c_win c then
    if has_bit mode PERM_WRITE then N.lor old 146
    else N.land old 261997 (* 0o777555 *)
  else N.lor (N.ldiff old PERM_ALL) (N.land mode PERM_ALL).
Definition chmod (a : parg) (mode : N) (follow : bool) : M unit :=
  c <- gets f_cfg ;;
  o <- lift (fun s => resolve_arg s a follow true) ;;
  now <- gets f_now ;;
  mod_obj o (fun x => wo_ctime (wo_mode x (chmod_mode c (o_mode x) mode)) now).

(** FakeOsModule.lchmod, 4325-4335 *)
Definition lchmod (p : str) (mode : N) : M unit :=
  c <- gets f_cfg ;;
  if c_win c then raise TypeErr else chmod (PStr p) mode false.

(** utime and _handle_utime_arg_errors, 1237-1287.  [times] are whole seconds,
    [ns] nanoseconds; elements that are not numbers are not modelled. *)
Definition utime (a : parg) (times ns : option (list Z)) (follow : bool) : M unit :=
  match times, ns with
  | Some _, Some _ => raise ValueErr
  | _, _ =>
      if match times with Some l => negb (Nat.eqb (length l) 2) | None => false end then raise TypeErr
      else if match ns with Some l => negb (Nat.eqb (length l) 2) | None => false end then raise TypeErr
      else
        o <- lift (fun s => resolve_arg s a follow true) ;;
        now <- gets f_now ;;
        let at_mt := match times, ns with
                     | Some (t0 :: t1 :: _), _ => (t0 * 1000000000, t1 * 1000000000)%Z
                     | _, Some (n0 :: n1 :: _) => (n0, n1)
                     | _, _ => (now, now)
                     end in
        mod_obj o (fun x => wo_mtime (wo_atime x (fst at_mt)) (snd at_mt))
  end.

(** FakeOsModule.chown, 4364-4392 (uid, gid integers) *)
Definition chown (a : parg) (uid gid : Z) (follow : bool) : M unit :=
  o <- lift (fun s => resolve_arg s a follow true) ;;
  mod_obj o (fun x =>
    let x := if Z.eqb uid (-1) then x else wo_uid x uid in
    if Z.eqb gid (-1) then x else wo_gid x gid).

(** FakeOsModule.umask, 3787-3803 *)
Definition umask (m : N) : M N :=
  old <- gets f_umask ;; modify (fun s => set_umask s m) ;;; ret old.

(** FakeOsModule.chdir, 3805-3828: the permission test
    [not directory.st_mode | PERM_EXE] is never true *)
Definition chdir (a : parg) : M unit :=
  c <- gets f_cfg ;;
  p <- catch (lift (fun s => resolve_path_arg s a))
             (fun e => match e with
                       | OSErr EBADF => if c_mac c then raise_os ENOTDIR else raise e
                       | _ => raise e
                       end) ;;
  lift (fun s => confirmdir s p) ;;;
  d <- lift (fun s => resolve s p true) ;;
  denied <- gets (fun s => negb (is_root s) && N.eqb (N.lor (o_mode (ob s d)) PERM_EXE) 0) ;;
  if denied : bool then raise_os EACCES else modify (fun s => set_cwd s p).

(** FakeOsModule.getxattr / listxattr / removexattr / setxattr, 3855-3967 *)
Definition is_linux (c : cfg) : bool := negb (c_win c) && negb (c_mac c).
Definition getxattr (s : fs) (a : parg) (k : str) (follow : bool) : res (option str) :=
  if negb (is_linux (f_cfg s)) then Err AttrErr else
  let* o := resolve_arg s a follow true in Ok (assoc k (o_xattr (ob s o))).
Definition listxattr (s : fs) (a : option parg) (follow : bool) : res (list str) :=
  if negb (is_linux (f_cfg s)) then Err AttrErr else
  let* o := resolve_arg s (match a with Some a => a | None => PStr (f_cwd s) end) follow true in
  Ok (map fst (o_xattr (ob s o))).
Definition removexattr (a : parg) (k : str) (follow : bool) : M unit :=
  c <- gets f_cfg ;;
  if negb (is_linux c) then raise AttrErr else
  o <- lift (fun s => resolve_arg s a follow true) ;;
  mod_obj o (fun x => wo_xattr x (del_assoc k (o_xattr x))).
Definition setxattr (a : parg) (k v : str) (flags : Z) (follow : bool) : M unit :=
  c <- gets f_cfg ;;
  if negb (is_linux c) then raise AttrErr else
  o <- lift (fun s => resolve_arg s a follow true) ;;
  ex <- gets (fun s => match assoc k (o_xattr (ob s o)) with Some _ => true | None => false end) ;;
  if ex && Z.eqb flags 1 then raise_os ENODATA
  else if negb ex && Z.eqb flags 2 then raise_os EEXIST
  else mod_obj o (fun x => wo_xattr x (set_assoc k v (o_xattr x))).

(** FakeOsModule.truncate, 4253-4268, and ftruncate, 4270-4283 *)
Definition os_truncate (a : parg) (n : Z) : M unit :=
  o <- lift (fun s => resolve_arg s a true true) ;; set_size o n.
Definition os_ftruncate (fd : Z) (n : Z) : M unit :=
  o <- lift (fun s => fd_object s fd) ;; set_size o n.

(** ** The initial state: FakeFilesystem.__init__, 857-909 *)
Definition dummy_obj : fobj := mkobj [] 0 None None 0 0 0 0 (BFile None) 0 None 0 0 0 [].
Definition dummy_wrap : wrapper :=
  mkwrap WStd 0 false false false false false false 0 0 false [] 0 0 0 0 0.
Definition std_wrap (fd : Z) : wrapper :=
  mkwrap WStd 0 false false false false false false 0 0 false [] 0 0 0 0 fd.

Definition init_root (c : cfg) (uid gid now : Z) : fobj :=
  mkobj [c_sep c] (N.lor S_IFDIR PERM_DEF) (Some 1) (Some 1) 1 uid gid 0 (BDir []) 0 None now now now [].
Definition init_null (c : cfg) (uid gid now : Z) : fobj :=
  mkobj (devnull_init_name c) (N.lor S_IFREG PERM_DEF_FILE) None None 0 uid gid 0 (BFile (Some [])) 0 None now now now [].

Definition init (c : cfg) (total : option Z) (um : N) (uid gid now : Z) : fs :=
  mkfs c
    (fun o => if Nat.eqb o root_oid then init_root c uid gid now
              else if Nat.eqb o devnull_oid then init_null c uid gid now
              else dummy_obj)
    2 [c_sep c] um um
    [Some [0]; Some [1]; Some [2]] []
    (fun w => if Nat.ltb w 3 then std_wrap (Z.of_nat w) else dummy_wrap) 3
    1 1
    [([c_sep c], mkmount 1 total 0)]
    uid gid now.
