(** * Text mode: FakeFileWrapper over TextBufferIO (an io.TextIOWrapper).

    Models /repo/pyfakefs/fake_filesystem.py 4642-4691, 4906-4954 and 4999-5030
    for text handles, and helpers.py TextBufferIO 292-307.  The bytes below the
    text layer are those of [IoModel]: after every write the wrapper calls
    [self._io.tell()], which makes TextIOWrapper hand its pending bytes to the
    BytesIO object, so that a text write is a write of the encoded text at the
    position of the buffer.  (The position reported by [tell] is the byte
    position as long as nothing was read through the handle.)

    Simplifications: stateless codecs (UTF-8, Latin-1; not UTF-16 with its
    byte order mark), [errors='strict'], host Linux ([os.linesep] is '\n'),
    reading with [read()] of everything only, handles that do not read and
    write at the same time, [buffering != 0] (0 is refused by the code). *)
From Verif Require Export IoModel.
From Coq Require Import NArith.
Open Scope nat_scope.

(** A Python str: code points *)
Definition text := list N.
Definition LF : N := 10.
Definition CR : N := 13.

(** the newline argument of open() *)
Inductive newline := NlNone | NlEmpty | NlLf | NlCr | NlCrLf.
(** CPython Modules/_io/textio.c, write: [writetranslate] and [writenl] *)
Definition nl_write (nl : newline) (t : text) : text :=
  match nl with
  | NlNone | NlEmpty | NlLf => t
  | NlCr => map (fun c => if N.eqb c LF then CR else c) t
  | NlCrLf => flat_map (fun c => if N.eqb c LF then [CR; LF] else [c]) t
  end.
(** IncrementalNewlineDecoder with translate: '\r\n' and '\r' become '\n' *)
Fixpoint universal (t : text) : text :=
  match t with
  | [] => []
  | c :: t' =>
      if N.eqb c CR then
        LF :: match t' with
              | d :: t'' => if N.eqb d LF then universal t'' else universal t'
              | [] => []
              end
      else c :: universal t'
  end.
(** [readtranslate] *)
Definition nl_read (nl : newline) (t : text) : text := match nl with NlNone => universal t | _ => t end.

(** ** Codecs *)
Record codec := mkcodec {
  cd_enc : N -> option str;        (* None: UnicodeEncodeError *)
  cd_dec : str -> option text      (* None: UnicodeDecodeError *)
}.
Fixpoint encode (cd : codec) (t : text) : option str :=
  match t with
  | [] => Some []
  | c :: t' =>
      match cd_enc cd c, encode cd t' with
      | Some a, Some b => Some (a ++ b)
      | _, _ => None
      end
  end.

(** Latin-1 *)
Definition latin1 : codec := mkcodec
  (fun c => if (c <? 256)%N then Some [ascii_of_N c] else None)
  (fun b => Some (map N_of_ascii b)).
(** UTF-8, RFC 3629: no surrogates, no overlong forms *)
Definition byte (n : N) : ascii := ascii_of_N n.
Definition surrogate (c : N) : bool := ((55296 <=? c) && (c <=? 57343))%N.
Definition utf8_enc (c : N) : option str :=
  (if c <? 128 then Some [byte c]
   else if c <? 2048 then Some [byte (192 + c / 64); byte (128 + c mod 64)]
   else if c <? 65536 then
     if surrogate c then None else Some [byte (224 + c / 4096); byte (128 + c / 64 mod 64); byte (128 + c mod 64)]
   else if c <? 1114112 then Some [byte (240 + c / 262144); byte (128 + c / 4096 mod 64); byte (128 + c / 64 mod 64); byte (128 + c mod 64)]
   else None)%N.
Definition cont (b : ascii) : bool := let n := N_of_ascii b in ((128 <=? n) && (n <? 192))%N.
Definition low6 (b : ascii) : N := (N_of_ascii b - 128)%N.
Definition ocons (c : N) (t : option text) : option text := match t with Some t => Some (c :: t) | None => None end.
Fixpoint utf8_dec (b : str) : option text :=
  match b with
  | [] => Some []
  | b1 :: r1 =>
      let n := N_of_ascii b1 in
      if (n <? 128)%N then ocons n (utf8_dec r1)
      else if (n <? 192)%N then None
      else match r1 with
           | [] => None
           | b2 :: r2 =>
               if (n <? 224)%N then
                 let c := ((n - 192) * 64 + low6 b2)%N in
                 if cont b2 && (128 <=? c)%N then ocons c (utf8_dec r2) else None
               else match r2 with
                    | [] => None
                    | b3 :: r3 =>
                        if (n <? 240)%N then
                          let c := ((n - 224) * 4096 + low6 b2 * 64 + low6 b3)%N in
                          if cont b2 && cont b3 && (2048 <=? c)%N && negb (surrogate c) then ocons c (utf8_dec r3) else None
                        else match r3 with
                             | [] => None
                             | b4 :: r4 =>
                                 let c := ((n - 240) * 262144 + low6 b2 * 4096 + low6 b3 * 64 + low6 b4)%N in
                                 if (n <? 245)%N && cont b2 && cont b3 && cont b4 && (65536 <=? c)%N && (c <? 1114112)%N
                                 then ocons c (utf8_dec r4) else None
                             end
                    end
           end
  end.
Definition utf8 : codec := mkcodec utf8_enc utf8_dec.

(** ** Text handles *)
(** What open() was given besides the mode; [tm_line] is _use_line_buffer,
    4663: [buffering == 1] *)
Record tmode := mktm { tm_codec : codec; tm_nl : newline; tm_line : bool }.

(** open() with a text mode: the buffer size is 8192 whatever was asked for, 4658-4663 *)
Definition open_text (a : parg) (mode : str) (closefd : bool) : M wid :=
  match parse_mode mode with
  | Err e => raise e
  | Ok om => if has_char "b"%char mode then raise NotImpl else open_call a om (-1) closefd false false
  end.

(** write(t): __getattr__ 4999-5028, _write_wrapper 4906-4954 *)
Definition text_write (tm : tmode) (w : wid) (t : text) : M Z :=
  x <- io_enter w ;;
  if negb (w_update x) then io_raise x
  else match encode (tm_codec tm) (nl_write (tm_nl tm) t) with
  | None => raise ValueErr
  | Some data =>
    let old_pos := w_pos x in
    bwrite w data ;;;
    y <- wget w ;;
    let new_pos := w_pos y in
    let use_line_buf := tm_line tm && existsb (N.eqb LF) t in
    (if ((w_bufsize y <? Z.of_nat new_pos - Z.of_nat (w_fpos y))%Z || use_line_buf) then
       let flush_all := (w_bufsize y <? Z.of_nat new_pos - Z.of_nat old_pos)%Z || use_line_buf in
       (if flush_all then ret tt
        else bseek w (Z.of_nat old_pos) 0 ;;; btrunc_here w) ;;;
       try_flush w old_pos ;;;
       (if flush_all then ret tt else bwrite w data)
     else ret tt) ;;;
    (if w_append x then wmod w (fun z => ww_rseek z (Z.of_nat (w_pos z)) 0) else ret tt) ;;;
    ret (Z.of_nat (length t))
  end.

(** read(): everything *)
Definition text_read (tm : tmode) (w : wid) : M text :=
  d <- file_read w (-1) ;;
  match cd_dec (tm_codec tm) d with
  | Some t => ret (nl_read (tm_nl tm) t)
  | None => raise ValueErr
  end.

(** [f.write(t1); f.write(t2); ...], and what the calls return *)
Fixpoint text_writes (tm : tmode) (w : wid) (ts : list text) : M (list Z) :=
  match ts with
  | [] => ret []
  | t :: ts' => n <- text_write tm w t ;; l <- text_writes tm w ts' ;; ret (n :: l)
  end.
