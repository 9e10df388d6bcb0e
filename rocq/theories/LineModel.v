(** * Reading a binary file line by line, and os.sendfile

    Models fake_filesystem.py: FakeFileWrapper.__getattr__ for the read calls
    other than [read] (4999-5030), _read_error (5032-5040), _read_wrappers
    (4835-4869), __iter__ and __next__ (5062-5070), FakeOsModule.sendfile
    (4512-4557); the stream is an io.BytesIO (helpers.py 287-291).

    Not modelled: text files; sendfile with the sockets of macOS; pipes. *)
From Verif Require Export IoModel.

Definition newline : ascii := ascii_of_nat 10.

(** ** io.BytesIO (CPython Modules/_io/bytesio.c, scan_eol) *)
Fixpoint first_line (c : str) : str :=
  match c with
  | [] => []
  | x :: r => if Ascii.eqb x newline then [x] else x :: first_line r
  end.
(** readline(n): no limit for a negative n *)
Definition bio_readline (n : Z) (buf : str) (pos : nat) : str * nat :=
  let l := first_line (skipn pos buf) in
  let r := if (n <? 0)%Z then l else firstn (Z.to_nat n) l in
  (r, pos + length r).
(** readlines(hint): lines until there are none or, for a positive hint, until
    they have this many bytes together; [fuel] bounds the number of lines *)
Fixpoint lines_loop (fuel : nat) (hint : Z) (size : nat) (buf : str) (pos : nat) : list str * nat :=
  match fuel with
  | O => ([], pos)
  | S k =>
      let lp := bio_readline (-1) buf pos in
      match fst lp with
      | [] => ([], pos)
      | _ =>
          let size := size + length (fst lp) in
          if (0 <? hint)%Z && (hint <=? Z.of_nat size)%Z then ([fst lp], snd lp)
          else let rp := lines_loop k hint size buf (snd lp) in (fst lp :: fst rp, snd rp)
      end
  end.
Definition bio_readlines (hint : Z) (buf : str) (pos : nat) : list str * nat :=
  lines_loop (S (length buf)) hint 0 buf pos.

(** ** A read call of any name: __getattr__ 4999-5030, _read_error 5032-5040
    ([zero]: the first argument is 0), _read_wrappers 4835-4869.
    ([file_read] of IoModel.v is the case of [read].) *)
Definition reading {A} (w : wid) (zero : bool) (nothing : A) (f : str -> nat -> A * nat) : M A :=
  x <- io_enter w ;;
  if negb (w_read x) then
    win <- gets (fun s => c_win (f_cfg s)) ;;
    if zero && win && w_raw x then ret nothing else io_raise x
  else
    sync_io w ;;;
    flush w ;;;
    (win <- gets (fun s => c_win (f_cfg s)) ;;
     now <- gets f_now ;;
     if win : bool then ret tt else mod_obj (w_obj x) (fun z => wo_atime z now)) ;;;
    if w_append x then
      y <- wget w ;;
      bseek w (w_rseek y) (w_rwhence y) ;;;
      y <- wget w ;;
      let rp := f (w_buf y) (w_pos y) in
      wmod w (fun z => ww_rseek z (Z.of_nat (snd rp)) 0) ;;;
      wmod w (fun z => ww_bufpos z (w_buf z) (length (w_buf z))) ;;;
      ret (fst rp)
    else
      y <- wget w ;;
      let rp := f (w_buf y) (w_pos y) in
      wmod w (fun z => ww_bufpos z (w_buf z) (snd rp)) ;;;
      ret (fst rp).
Lemma reading_read w n : file_read w n = reading w (Z.eqb n 0) [] (fun b p => bio_read b p n).
Proof. reflexivity. Qed.
Definition file_readline (w : wid) (n : Z) : M str := reading w (Z.eqb n 0) [] (bio_readline n).
(** (the refused readlines(0) of a simulated Windows gives b'', here []) *)
Definition file_readlines (w : wid) (hint : Z) : M (list str) := reading w (Z.eqb hint 0) [] (bio_readlines hint).
(** readinto a buffer of n bytes; the result are the bytes put there *)
Definition file_readinto (w : wid) (n : nat) : M str := reading w false [] (fun b p => bio_read b p (Z.of_nat n)).

(** __next__, 5067-5070: None is StopIteration.  The stream is used directly.
    The other wrappers have no such method (TypeError). *)
Definition io_next (w : wid) : M (option str) :=
  x <- wget w ;;
  let rp := bio_readline (-1) (w_buf x) (w_pos x) in
  wmod w (fun z => ww_bufpos z (w_buf z) (snd rp)) ;;;
  ret (match fst rp with [] => None | l => Some l end).
Definition file_next (w : wid) : M (option str) :=
  x <- wget w ;;
  match w_kind x with
  | WFile => if negb (w_read x) then io_raise x else io_next w
  | _ => raise TypeErr
  end.
(** list(f): __iter__, 5062-5065, gives the stream itself, which then is asked
    for lines until there are no more *)
Fixpoint next_loop (fuel : nat) (w : wid) : M (list str) :=
  match fuel with
  | O => ret []
  | S k =>
      o <- io_next w ;;
      match o with
      | None => ret []
      | Some l => r <- next_loop k w ;; ret (l :: r)
      end
  end.
Definition file_list (w : wid) : M (list str) :=
  x <- wget w ;;
  match w_kind x with
  | WFile => if negb (w_read x) then io_raise x else next_loop (S (length (w_buf x))) w
  | _ => raise TypeErr
  end.

(** ** FakeOsModule.sendfile, 4512-4557.  [read] of a directory or a pipe:
    AttributeError, not modelled.  S_IFSOCK is 0o140000. *)
Definition os_sendfile (fd_out fd_in : Z) (off : option Z) (count : Z) : M Z :=
  win <- gets (fun s => c_win (f_cfg s)) ;;
  mac <- gets (fun s => c_mac (f_cfg s)) ;;
  if win : bool then raise AttrErr else
  if (0 <=? fd_in)%Z && (fd_in <? 3)%Z then raise_os EINVAL else
  if (0 <=? fd_out)%Z && (fd_out <? 3)%Z then raise_os EINVAL else
  source <- lift (fun s => get_open_file s fd_in) ;;
  dest <- lift (fun s => get_open_file s fd_out) ;;
  (if mac : bool then raise NotImpl else ret tt) ;;;
  x <- wget source ;;
  match w_kind x with
  | WPipe => raise NotImpl
  | WFile =>
    contents <-
      match off with
      | None => file_read source count
      | Some offset =>
          position <- file_tell source ;;
          file_seek source offset 0 ;;;
          c <- file_read source count ;;
          file_seek source position 0 ;;;
          ret c
      end ;;
    match contents with
    | [] => ret 0%Z
    | _ =>
        y <- wget dest ;;
        match w_kind y with
        | WFile => written <- file_write dest contents ;; flush dest ;;; ret written
        | WPipe => raise NotImpl
        | _ => raise AttrErr
        end
    end
  | _ => raise AttrErr
  end.
