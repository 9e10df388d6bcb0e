(** * Open files: FakeFileOpen, FakeFileWrapper (binary mode) and descriptors.

    Models /repo/pyfakefs/fake_filesystem.py 1302-1333, 3580-3755, 4475-4510,
    4635-5359 and helpers.py BinaryBufferIO (a subclass of io.BytesIO).

    Not modelled: text mode, the contents of pipes (a real OS object; only
    their descriptors are).  readline/readinto/iteration and sendfile are in
    LineModel.v. *)
From Verif Require Export OpsModel.

(** ** io.BytesIO: a byte string and a position (CPython Modules/_io/bytesio.c) *)
Definition zeros (n : nat) : str := repeat "000"%char n.
(** write: nothing happens for an empty argument; a gap is filled with NULs *)
Definition bio_write (buf : str) (pos : nat) (data : str) : str * nat :=
  match data with
  | [] => (buf, pos)
  | _ => (firstn pos buf ++ zeros (pos - length buf) ++ data ++ skipn (pos + length data) buf,
          pos + length data)
  end.
(** seek: None is ValueError *)
Definition bio_seek (buf : str) (pos : nat) (off : Z) (whence : nat) : option nat :=
  match whence with
  | 0 => if (off <? 0)%Z then None else Some (Z.to_nat off)
  | 1 => Some (Z.to_nat (Z.max 0 (Z.of_nat pos + off)))
  | 2 => Some (Z.to_nat (Z.max 0 (Z.of_nat (length buf) + off)))
  | _ => None
  end.
(** read(n): everything for a negative n *)
Definition bio_read (buf : str) (pos : nat) (n : Z) : str * nat :=
  let rest := skipn pos buf in
  let r := if (n <? 0)%Z then rest else firstn (Z.to_nat n) rest in
  (r, pos + length r).
(** truncate(size) cuts and never extends; the position stays *)
Definition bio_truncate (buf : str) (n : nat) : str := firstn n buf.

(** ** The descriptor table *)

(** list[i] = v with a possibly negative index *)
Fixpoint set_nth {A} (l : list A) (i : nat) (v : A) : list A :=
  match l, i with
  | [], _ => []
  | _ :: l', O => v :: l'
  | x :: l', S i' => x :: set_nth l' i' v
  end.
Definition py_pos {A} (l : list A) (i : Z) : nat :=
  if (i <? 0)%Z then Z.to_nat (Z.of_nat (length l) + i) else Z.to_nat i.
Definition py_set {A} (l : list A) (i : Z) (v : A) : list A := set_nth l (py_pos l i) v.

(** _free_fd_heap: heappush / heappop only show the minimum, so a sorted list
    models the heap *)
Fixpoint heap_push (x : Z) (h : list Z) : list Z :=
  match h with
  | [] => [x]
  | y :: h' => if (x <=? y)%Z then x :: h else y :: heap_push x h'
  end.

(** _add_open_file, 1302-1320 *)
Definition add_open_file (w : wid) : M Z :=
  fun s => match f_free s with
           | fd :: h => (Ok fd, set_free (set_open s (py_set (f_open s) fd (Some [w]))) h)
           | [] => (Ok (Z.of_nat (length (f_open s))), set_open s (f_open s ++ [Some [w]]))
           end.
(** _close_open_file, 1322-1333 *)
Definition close_open_file (fd : Z) : M unit :=
  modify (fun s => set_free (set_open s (py_set (f_open s) fd None)) (heap_push fd (f_free s))).

(** ** Wrappers *)
Definition ww_bufpos (x : wrapper) (b : str) (p : nat) : wrapper :=
  mkwrap (w_kind x) (w_obj x) (w_append x) (w_read x) (w_update x) (w_closefd x) (w_raw x) (w_del x) (w_bufsize x) (w_epoch x) (w_changed x) b p (w_rseek x) (w_rwhence x) (w_fpos x) (w_fd x).
Definition ww_rseek (x : wrapper) (r : Z) (wh : nat) : wrapper :=
  mkwrap (w_kind x) (w_obj x) (w_append x) (w_read x) (w_update x) (w_closefd x) (w_raw x) (w_del x) (w_bufsize x) (w_epoch x) (w_changed x) (w_buf x) (w_pos x) r wh (w_fpos x) (w_fd x).
Definition ww_fpos (x : wrapper) (p : nat) : wrapper :=
  mkwrap (w_kind x) (w_obj x) (w_append x) (w_read x) (w_update x) (w_closefd x) (w_raw x) (w_del x) (w_bufsize x) (w_epoch x) (w_changed x) (w_buf x) (w_pos x) (w_rseek x) (w_rwhence x) p (w_fd x).
Definition ww_epoch (x : wrapper) (e : nat) : wrapper :=
  mkwrap (w_kind x) (w_obj x) (w_append x) (w_read x) (w_update x) (w_closefd x) (w_raw x) (w_del x) (w_bufsize x) e (w_changed x) (w_buf x) (w_pos x) (w_rseek x) (w_rwhence x) (w_fpos x) (w_fd x).
Definition ww_changed (x : wrapper) (b : bool) : wrapper :=
  mkwrap (w_kind x) (w_obj x) (w_append x) (w_read x) (w_update x) (w_closefd x) (w_raw x) (w_del x) (w_bufsize x) (w_epoch x) b (w_buf x) (w_pos x) (w_rseek x) (w_rwhence x) (w_fpos x) (w_fd x).
Definition ww_raw (x : wrapper) (b : bool) : wrapper :=
  mkwrap (w_kind x) (w_obj x) (w_append x) (w_read x) (w_update x) (w_closefd x) b (w_del x) (w_bufsize x) (w_epoch x) (w_changed x) (w_buf x) (w_pos x) (w_rseek x) (w_rwhence x) (w_fpos x) (w_fd x).
Definition ww_fd (x : wrapper) (fd : Z) : wrapper :=
  mkwrap (w_kind x) (w_obj x) (w_append x) (w_read x) (w_update x) (w_closefd x) (w_raw x) (w_del x) (w_bufsize x) (w_epoch x) (w_changed x) (w_buf x) (w_pos x) (w_rseek x) (w_rwhence x) (w_fpos x) fd.

Definition mod_wr (s : fs) (w : wid) (f : wrapper -> wrapper) : fs :=
  set_wraps s (upd (f_wraps s) w (f (f_wraps s w))).
Definition wmod (w : wid) (f : wrapper -> wrapper) : M unit := modify (fun s => mod_wr s w f).
Definition wget (w : wid) : M wrapper := gets (fun s => wr s w).
Definition alloc_wrap (x : wrapper) : M wid :=
  fun s => (Ok (f_wnext s), set_wnext (set_wraps s (upd (f_wraps s) (f_wnext s) x)) (S (f_wnext s))).

(** _is_open, 5053-5056, and _check_open_file, 5058-5060 *)
Definition is_open (s : fs) (w : wid) : bool :=
  let fd := w_fd (wr s w) in
  (fd <? Z.of_nat (length (f_open s)))%Z &&
  match py_index (f_open s) fd with
  | Some (Some l) => existsb (Nat.eqb w) l
  | _ => false
  end.
Definition check_open (w : wid) : M unit :=
  b <- gets (fun s => is_open s w) ;; if b : bool then ret tt else raise ValueErr.

(** byte_contents of the file object of a wrapper: [None] for a large file
    (FakeNullFile always returns b'') *)
Definition byte_contents (s : fs) (o : oid) : option str :=
  if Nat.eqb o devnull_oid then Some [] else
  match o_body (ob s o) with BFile d => d | BDir _ => None end.
(** is_large_file, 374-377 *)
Definition is_large (s : fs) (o : oid) : bool :=
  match o_body (ob s o) with BFile None => true | _ => false end.

Definition bseek (w : wid) (off : Z) (whence : nat) : M unit :=
  x <- wget w ;;
  match bio_seek (w_buf x) (w_pos x) off whence with
  | Some p => wmod w (fun x => ww_bufpos x (w_buf x) p)
  | None => raise ValueErr
  end.
Definition bwrite (w : wid) (data : str) : M unit :=
  wmod w (fun x => let bp := bio_write (w_buf x) (w_pos x) data in ww_bufpos x (fst bp) (snd bp)).
(** truncate() at the current position *)
Definition btrunc_here (w : wid) : M unit :=
  wmod w (fun x => ww_bufpos x (bio_truncate (w_buf x) (w_pos x)) (w_pos x)).

(** _set_stream_contents, 4827-4833; [None] cannot be written (TypeError) *)
Definition set_stream_contents (w : wid) (contents : option str) : M unit :=
  x <- wget w ;;
  wmod w (fun x => ww_bufpos x [] 0) ;;;
  match contents with
  | None => raise TypeErr
  | Some c => wmod w (fun y => ww_bufpos y c (if w_append x then length c else w_pos x))
  end.

(** _sync_io, 4818-4825 *)
Definition sync_io (w : wid) : M unit :=
  x <- wget w ;;
  ep <- gets (fun s => o_epoch (ob s (w_obj x))) ;;
  if Nat.eqb (w_epoch x) ep then ret tt else
  c <- gets (fun s => byte_contents s (w_obj x)) ;;
  set_stream_contents w c ;;;
  wmod w (fun y => ww_epoch y ep).

(** update_flush_pos, 4775-4776 *)
Definition update_flush_pos (w : wid) : M unit := wmod w (fun x => ww_fpos x (w_pos x)).

(** the handles of open_files[3:] that have this file object, 4779-4784 and
    4957-4962 *)
Definition related (s : fs) (w : wid) (app : bool) : list wid :=
  filter (fun v => negb (Nat.eqb v w) &&
                   match w_kind (wr s v) with
                   | WFile => Nat.eqb (w_obj (wr s v)) (w_obj (wr s w)) && Bool.eqb (w_append (wr s v)) app
                   | _ => false
                   end)
         (flat_map (fun slot => match slot with Some l => l | None => [] end) (skipn 3 (f_open s))).
Fixpoint for_each (l : list wid) (f : wid -> M unit) : M unit :=
  match l with [] => ret tt | x :: l' => f x ;;; for_each l' f end.
(** _flush_related_files, 4778-4785 *)
Definition flush_related (w : wid) : M unit :=
  l <- gets (fun s => related s w false) ;; for_each l sync_io.

(** FakeFile.set_contents, 415-433; FakeDirectory.set_contents, 631-632 *)
Definition set_contents (o : oid) (c : str) : M bool :=
  isd <- gets (fun s => is_dirobj s o) ;;
  if isd : bool then raise_os EISDIR else set_initial_contents o c.

(** flush, 4750-4773 *)
Definition flush (w : wid) : M unit :=
  check_open w ;;;
  x <- wget w ;;
  if negb (w_update x) then ret tt else
  contents <-
    (if w_append x then
       sync_io w ;;;
       old <- gets (fun s => byte_contents s (w_obj x)) ;;
       match old with
       | None => raise TypeErr
       | Some old =>
           let c := old ++ skipn (w_fpos x) (w_buf x) in
           set_stream_contents w (Some c) ;;; ret c
       end
     else ret (w_buf x)) ;;
  update_flush_pos w ;;;
  changed <- set_contents (w_obj x) contents ;;
  (if changed : bool then
     win <- gets (fun s => c_win (f_cfg s)) ;;
     if win : bool then wmod w (fun y => ww_changed y true)
     else now <- gets f_now ;;
          mod_obj (w_obj x) (fun y => wo_mtime (wo_ctime y now) now)
   else ret tt) ;;;
  ep <- gets (fun s => o_epoch (ob s (w_obj x))) ;;
  wmod w (fun y => ww_epoch y ep) ;;;
  flush_related w.

(** close, 4715-4731 *)
Definition close_file (w : wid) : M unit :=
  o <- gets (fun s => is_open s w) ;;
  if negb o then ret tt else
  x <- wget w ;;
  (if w_update x && negb (w_raw x) then
     flush w ;;;
     y <- wget w ;;
     win <- gets (fun s => c_win (f_cfg s)) ;;
     if win && w_changed y
     then now <- gets f_now ;; mod_obj (w_obj x) (fun z => wo_mtime z now)
     else ret tt
   else ret tt) ;;;
  (if w_closefd x then close_open_file (w_fd x)
   else modify (fun s =>
          match py_index (f_open s) (w_fd x) with
          | Some (Some l) =>
              set_open s (py_set (f_open s) (w_fd x) (Some (List.remove Nat.eq_dec w l)))
          | _ => s
          end)) ;;;
  if w_del x then
    p <- lift (fun s => obj_path s (w_obj x)) ;; remove_object p
  else ret tt.

(** close of any wrapper: StandardStreamWrapper (5088), FakeDirWrapper (5115),
    FakePipeWrapper (5158) *)
Definition close_wrapper (w : wid) : M unit :=
  x <- wget w ;;
  match w_kind x with
  | WStd => ret tt
  | WDirW => close_open_file (w_fd x)
  | WPipe =>
      slot <- gets (fun s => py_index (f_open s) (w_fd x)) ;;
      match slot with
      | Some (Some l) =>
          if existsb (Nat.eqb w) l
          then modify (fun s => set_open s (py_set (f_open s) (w_fd x) (Some (List.remove Nat.eq_dec w l))))
          else raise ValueErr
      | _ => raise AttrErr
      end
  | WFile => close_file w
  end.

(** _try_flush, 4738-4748 *)
Definition try_flush (w : wid) (old_pos : nat) : M unit :=
  x <- wget w ;;
  catch (flush w)
    (fun e => match e with
              | OSErr _ =>
                  bseek w (Z.of_nat old_pos) 0 ;;;
                  btrunc_here w ;;;
                  wmod w (fun y => ww_fpos y (w_fpos x)) ;;;
                  raise e
              | _ => raise e
              end).

(** _raise, 4701-4704 *)
Definition io_raise {A} (x : wrapper) : M A :=
  if w_raw x then raise_os EBADF else raise Unsupported.

(** the part of __getattr__ common to read/write/truncate, 5000-5012 *)
Definition io_enter (w : wid) : M wrapper :=
  x <- wget w ;;
  match w_kind x with
  | WFile =>
      large <- gets (fun s => is_large s (w_obj x)) ;;
      if large : bool then raise LargeFile else
      check_open w ;;; ret x
  | _ => raise AttrErr
  end.

(** write: __getattr__ 4999-5028, _write_error 5042-5051, _write_wrapper
    4906-4954 (binary: no line buffer) *)
Definition file_write (w : wid) (data : str) : M Z :=
  x <- io_enter w ;;
  if negb (w_update x) then
    win <- gets (fun s => c_win (f_cfg s)) ;;
    if w_raw x && win && negb (nonempty data) then ret 0%Z else io_raise x
  else
    let old_pos := w_pos x in
    bwrite w data ;;;
    y <- wget w ;;
    let new_pos := w_pos y in
    (if (w_bufsize y <? Z.of_nat new_pos - Z.of_nat (w_fpos y))%Z then
       let flush_all := (w_bufsize y <? Z.of_nat new_pos - Z.of_nat old_pos)%Z in
       (if flush_all then ret tt
        else bseek w (Z.of_nat old_pos) 0 ;;; btrunc_here w) ;;;
       try_flush w old_pos ;;;
       (if flush_all then ret tt else bwrite w data)
     else ret tt) ;;;
    (if w_append x then wmod w (fun z => ww_rseek z (Z.of_nat (w_pos z)) 0) else ret tt) ;;;
    ret (Z.of_nat (length data)).

(** read: __getattr__ 4999-5030, _read_error 5032-5040, _read_wrappers
    4835-4869 *)
Definition file_read (w : wid) (n : Z) : M str :=
  x <- io_enter w ;;
  if negb (w_read x) then
    win <- gets (fun s => c_win (f_cfg s)) ;;
    if Z.eqb n 0 && win && w_raw x then ret [] else io_raise x
  else
    sync_io w ;;;
    flush w ;;;
    (win <- gets (fun s => c_win (f_cfg s)) ;;
     now <- gets f_now ;;
     if win : bool then ret tt else mod_obj (w_obj x) (fun z => wo_atime z now)) ;;;
    if w_append x then
      y <- wget w ;;
      bseek w (w_rseek y) (w_rwhence y) ;;;
      y <- wget w ;;
      let rp := bio_read (w_buf y) (w_pos y) n in
      wmod w (fun z => ww_rseek z (Z.of_nat (snd rp)) 0) ;;;
      wmod w (fun z => ww_bufpos z (w_buf z) (length (w_buf z))) ;;;
      ret (fst rp)
    else
      y <- wget w ;;
      let rp := bio_read (w_buf y) (w_pos y) n in
      wmod w (fun z => ww_bufpos z (w_buf z) (snd rp)) ;;;
      ret (fst rp).

(** seek, 4787-4796 (only FakeFileWrapper) *)
Definition file_seek (w : wid) (off : Z) (whence : nat) : M unit :=
  x <- wget w ;;
  match w_kind x with
  | WFile =>
      check_open w ;;;
      (if negb (w_append x) then bseek w off whence
       else wmod w (fun y => ww_rseek y off whence)) ;;;
      flush w
  | _ => raise AttrErr
  end.

(** tell, 4798-4816 *)
Definition file_tell (w : wid) : M Z :=
  x <- wget w ;;
  match w_kind x with
  | WFile =>
      check_open w ;;;
      flush w ;;;
      y <- wget w ;;
      if negb (w_append y) then ret (Z.of_nat (w_pos y))
      else if Nat.eqb (w_rwhence y) 0 then ret (w_rseek y)
      else
        let write_seek := w_pos y in
        bseek w (w_rseek y) (w_rwhence y) ;;;
        z <- wget w ;;
        wmod w (fun v => ww_rseek v (Z.of_nat (w_pos z)) 0) ;;;
        bseek w (Z.of_nat write_seek) 0 ;;;
        ret (Z.of_nat (w_pos z))
  | _ => raise AttrErr
  end.

(** _adapt_size_for_related_files, 4956-4963 *)
Definition adapt_related (w : wid) (size : Z) : M unit :=
  l <- gets (fun s => related s w true) ;;
  for_each l (fun v => wmod v (fun x => ww_rseek x (w_rseek x + size)%Z (w_rwhence x))).

(** truncate: _truncate_wrapper, 4965-4993 *)
Definition file_truncate (w : wid) (size : option Z) : M Z :=
  x <- io_enter w ;;
  if negb (w_update x) then
    (* write_error: on Windows [len(args[0])] of an int is a TypeError *)
    win <- gets (fun s => c_win (f_cfg s)) ;;
    if w_raw x && win && (match size with Some _ => true | None => false end)
    then raise TypeErr else io_raise x
  else
    (if w_append x then bseek w (w_rseek x) (w_rwhence x) else ret tt) ;;;
    y <- wget w ;;
    let n := match size with Some n => n | None => Z.of_nat (w_pos y) end in
    if (n <? 0)%Z then raise ValueErr else
    wmod w (fun z => ww_bufpos z (bio_truncate (w_buf z) (Z.to_nat n)) (w_pos z)) ;;;
    flush w ;;;
    set_size (w_obj x) n ;;;
    y <- wget w ;;
    let bs := Z.of_nat (length (w_buf y)) in
    (if (bs <? n)%Z then
       bseek w bs 0 ;;;
       bwrite w (zeros (Z.to_nat (n - bs))) ;;;
       y <- wget w ;;
       set_contents (w_obj x) (w_buf y) ;;;
       wmod w (fun z => ww_fpos z (Z.to_nat n)) ;;;
       adapt_related w (n - bs)
     else ret tt) ;;;
    flush w ;;;
    ret n.

(** ** Opening: FakeFileOpen *)

(** _OpenModes, 130-133 *)
Record open_modes := mkom {
  om_must_exist : bool; om_read : bool; om_write : bool;
  om_trunc : bool; om_append : bool; om_must_not_exist : bool
}.
(** _OPEN_MODE_MAP, 135-146 *)
Definition open_mode_map (m : str) : option open_modes :=
  if str_eqb m (L "r") then Some (mkom true true false false false false)
  else if str_eqb m (L "w") then Some (mkom false false true true false false)
  else if str_eqb m (L "a") then Some (mkom false false true false true false)
  else if str_eqb m (L "r+") then Some (mkom true true true false false false)
  else if str_eqb m (L "w+") then Some (mkom false true true true false false)
  else if str_eqb m (L "a+") then Some (mkom false true true false true false)
  else if str_eqb m (L "x") then Some (mkom false false true false false true)
  else if str_eqb m (L "x+") then Some (mkom false true true false false true)
  else None.
(** _handle_file_mode, 5348-5359 *)
Fixpoint replace_rU (m : str) : str :=
  match m with
  | "r"%char :: (("U"%char :: t) as t') => "r"%char :: replace_rU t
  | c :: t => c :: replace_rU t
  | [] => []
  end.
Definition has_char (c : ascii) (m : str) : bool := existsb (Ascii.eqb c) m.
Definition parse_mode (m : str) : res open_modes :=
  if has_char "b"%char m && has_char "t"%char m then Err ValueErr else
  let m := filter (fun c => negb (Ascii.eqb c "t"%char) && negb (Ascii.eqb c "b"%char)) m in
  let m := map (fun c => if Ascii.eqb c "U"%char then "r"%char else c) (replace_rU m) in
  match open_mode_map m with Some om => Ok om | None => Err ValueErr end.

(** FakeFileWrapper.__init__, 4642-4691 (binary) *)
Definition init_wrapper (s : fs) (o : oid) (om : open_modes) (buffering : Z)
    (closefd raw del : bool) (contents : str) : wrapper :=
  let n := length contents in
  let bufsize := if Z.eqb buffering (-1) then 8192%Z else buffering in
  let at_end := nonempty contents && om_write om && om_append om in
  mkwrap WFile o (om_append om) (om_read om) (om_write om) closefd raw del bufsize
         (o_epoch (ob s o)) false contents (if at_end then n else 0)
         (if at_end then Z.of_nat n else 0%Z) 0 n 0%Z.

(** _init_file_object, 5290-5319 *)
Definition init_file_object (fo : option oid) (fpath real : str) (om : open_modes) : M oid :=
  match fo with
  | Some o =>
      denied <- gets (fun s => negb (is_root s) &&
                 ((om_read om && negb (has_bit (o_mode (ob s o)) PERM_READ)) ||
                  (om_write om && negb (has_bit (o_mode (ob s o)) PERM_WRITE)))) ;;
      if denied : bool then raise_os EACCES else
      (if om_write om && om_trunc om then set_contents o [] ;;; ret tt else ret tt) ;;;
      ret o
  | None =>
      if om_must_exist om then raise_os ENOENT else
      c <- gets f_cfg ;;
      il <- lift (fun s => islink s fpath) ;;
      tp <- (if il : bool
             then lift (fun s => let* l := lresolve s fpath in text_contents s l)
             else ret fpath) ;;
      if ends_with_path_separator c tp
      then raise_os (if c_win c then EINVAL else if c_mac c then ENOENT else EISDIR)
      else create_file_internally real (N.lor S_IFREG PERM_DEF_FILE) (Some []) None false true
  end.

(** _handle_file_arg, 5321-5346.  [inl fd] is a pipe descriptor. *)
Record farg := mkfarg { fa_obj : option oid; fa_path : str; fa_fd : option Z; fa_real : str; fa_del : bool }.
Definition handle_file_arg (a : parg) (del : bool) : M (Z + farg) :=
  match a with
  | PFd fd =>
      w <- lift (fun s => get_open_file s fd) ;;
      x <- wget w ;;
      match w_kind x with
      | WPipe => ret (inl fd)
      | WFile =>
          nm <- gets (fun s => o_name (ob s (w_obj x))) ;;
          ret (inr (mkfarg (Some (w_obj x)) nm (Some fd) nm (w_del x)))
      | _ => raise AttrErr
      end
  | PStr p =>
      nul <- gets devnull_name ;;
      if str_eqb p nul
      then ret (inr (mkfarg (Some devnull_oid) p None p del))
      else
        rp <- lift (fun s => resolve_path s p) ;;
        e <- lift (fun s => exists_ s p false) ;;
        fo <- (if e : bool
               then o <- lift (fun s => get_norm (fun t => resolve s t true) s rp false) ;; ret (Some o)
               else ret None) ;;
        ret (inr (mkfarg fo p None rp del))
  end.

Definition pipe_wrap : wrapper :=
  mkwrap WPipe 0 false false false true false false 0 0 false [] 0 0 0 0 0.
Definition add_wrap (x : wrapper) : M wid :=
  w <- alloc_wrap x ;;
  fd <- add_open_file w ;;
  wmod w (fun y => ww_fd y fd) ;;;
  ret w.

(** FakeFileOpen.call, 5190-5288 (binary) *)
Definition open_call (a : parg) (om : open_modes) (buffering : Z) (closefd raw del : bool) : M wid :=
  fa <- handle_file_arg a del ;;
  match fa with
  | inl _ => add_wrap pipe_wrap
  | inr fa =>
      c <- gets f_cfg ;;
      let closefd := match fa_fd fa with None => true | Some fd => if Z.eqb fd 0 then true else closefd end in
      dup <- (if om_must_not_exist om then
                match fa_obj fa with
                | Some _ => ret true
                | None => il <- lift (fun s => islink s (fa_path fa)) ;; ret (il && negb (c_win c))
                end
              else ret false) ;;
      if dup : bool then raise_os EEXIST else
      o <- init_file_object (fa_obj fa) (fa_path fa) (fa_real fa) om ;;
      isd <- gets (fun s => S_ISDIR (o_mode (ob s o))) ;;
      if isd : bool then raise_os (if c_win c then EACCES else EISDIR) else
      now <- gets f_now ;;
      (if om_trunc om then
         mod_obj o (fun x => let x := wo_mtime x now in if c_win c then x else wo_ctime x now)
       else ret tt) ;;;
      isdo <- gets (fun s => is_dirobj s o) ;;
      if isdo : bool then raise TypeErr (* BytesIO of a dict *) else
      cont <- gets (fun s => match byte_contents s o with Some b => b | None => [] end) ;;
      x <- gets (fun s => init_wrapper s o om buffering closefd raw (fa_del fa) cont) ;;
      match fa_fd fa with
      | Some fd =>
          w <- alloc_wrap (ww_fd x fd) ;;
          modify (fun s => match py_index (f_open s) fd with
                           | Some (Some l) => set_open s (py_set (f_open s) fd (Some (l ++ [w])))
                           | _ => s
                           end) ;;;
          ret w
      | None => add_wrap x
      end
  end.

(** io.open / builtin open with a binary mode (4593-4611) and os.fdopen (3580) *)
Definition open_ (a : parg) (mode : str) (buffering : Z) (closefd : bool) : M wid :=
  match parse_mode mode with
  | Err e => raise e
  | Ok om => if has_char "b"%char mode then open_call a om buffering closefd false false
             else raise NotImpl (* text mode: not modelled *)
  end.

(** os.open flags on Linux *)
Definition O_WRONLY : N := 1.
Definition O_RDWR : N := 2.
Definition O_CREAT : N := 64.
Definition O_EXCL : N := 128.
Definition O_TRUNC : N := 512.
Definition O_APPEND : N := 1024.
Definition O_TMPFILE : N := 4259840.

(** FakeOsModule.open, 3614-3686.  [uuid] stands for str(uuid.uuid4()). *)
Definition os_open (p : str) (flags : N) (mode : option N) (uuid : str) : M Z :=
  c <- gets f_cfg ;;
  um <- gets f_rumask ;;
  let mode := match mode with
              | Some m => m
              | None => if c_win c then 438%N else N.ldiff PERM_DEF um
              end in
  let tmp := has_bit flags O_TMPFILE in
  let om := mkom (negb (has_bit flags O_CREAT) && negb tmp)
                 (negb (has_bit flags O_WRONLY))
                 (has_bit flags (N.lor O_RDWR O_WRONLY))
                 (has_bit flags O_TRUNC)
                 (has_bit flags O_APPEND)
                 (has_bit flags O_EXCL) in
  if om_must_not_exist om && om_must_exist om then raise NotImpl else
  p <- (if tmp then match joinpaths c [p; uuid] with Some q => ret q | None => raise AssertErr end
        else ret p) ;;
  dirw <- (if c_win c then ret None else
             e <- lift (fun s => exists_ s p false) ;;
             if e : bool then
               o <- lift (fun s => resolve s p true) ;;
               isd <- gets (fun s => is_dirobj s o) ;;
               if isd : bool then
                 if (negb (om_must_exist om) && negb (c_mac c)) || om_write om
                 then raise_os EISDIR
                 else w <- add_wrap (mkwrap WDirW o false false false true false false 0 0 false [] 0 0 0 0 0) ;;
                      ret (Some w)
               else ret None
             else ret None) ;;
  match dirw with
  | Some w => x <- wget w ;; ret (w_fd x)
  | None =>
      w <- open_call (PStr p) om (-1) true true tmp ;;
      x <- wget w ;;
      (if Nat.eqb (w_obj x) devnull_oid then ret tt else chmod (PStr p) mode true) ;;;
      y <- wget w ;; ret (w_fd y)
  end.

(** FakeOsModule.close, 3688-3699 *)
Definition os_close (fd : Z) : M unit :=
  w <- lift (fun s => get_open_file s fd) ;; close_wrapper w.

(** FakeOsModule.read, 3701-3717.  A pipe is read from the operating system:
    not modelled. *)
Definition os_read (fd : Z) (n : Z) : M str :=
  w <- lift (fun s => get_open_file s fd) ;;
  wmod w (fun x => ww_raw x true) ;;;
  x <- wget w ;;
  match w_kind x with
  | WFile => file_read w n
  | WPipe => raise NotImpl
  | _ => raise AttrErr
  end.

(** FakeOsModule.write, 3719-3745 *)
Definition os_write (fd : Z) (data : str) : M Z :=
  w <- lift (fun s => get_open_file s fd) ;;
  x <- wget w ;;
  match w_kind x with
  | WDirW => raise_os EBADF
  | WPipe => raise NotImpl
  | WStd => wmod w (fun y => ww_raw y true) ;;; raise AttrErr
  | WFile =>
      wmod w (fun y => ww_raw y true) ;;;
      sync_io w ;;;
      update_flush_pos w ;;;
      file_write w data ;;;
      flush w ;;;
      ret (Z.of_nat (length data))
  end.

(** FakeOsModule.pipe, 3747-3755 *)
Definition os_pipe : M (Z * Z) :=
  w1 <- add_wrap pipe_wrap ;;
  w2 <- add_wrap pipe_wrap ;;
  x1 <- wget w1 ;; x2 <- wget w2 ;;
  ret (w_fd x1, w_fd x2).

(** FakeOsModule.fsync, 4475-4493 *)
Definition os_fsync (s : fs) (fd : Z) : res unit :=
  if (0 <=? fd)%Z && (fd <? 3)%Z then os_err EINVAL else
  let* w := get_open_file s fd in
  if c_win (f_cfg s) then
    match w_kind (wr s w) with
    | WFile => if w_update (wr s w) then Ok tt else os_err EBADF
    | WDirW => os_err EBADF
    | _ => Err AttrErr
    end
  else Ok tt.
