(** * The lexical path functions of FakeFilesystem.

    Models /repo/pyfakefs/fake_filesystem.py lines 1364-1757 and 1862-1868,
    2309-2313, 2854-2857, plus /repo/pyfakefs/fake_pathlib.py 165-226.

    Scope: [str] paths only (no [bytes], no [os.PathLike]).  The host is Linux:
    [os.sep = "/"], [os.altsep = None], [os.name = "posix"]; so the
    [os.name == 'nt'] branch of [_starts_with_drive_letter] (1708-1716) is
    dead and not modelled. *)
From Verif Require Export Str.

(** The configuration attributes of FakeFilesystem (840-852, 871-891,
    915-938): [is_windows_fs], [is_macos], [is_case_sensitive],
    [path_separator], [alternative_path_separator].  They are plain public
    attributes, so any combination can be set by a user. *)
Record cfg := mkcfg {
  c_win : bool;
  c_mac : bool;
  c_cs  : bool;
  c_sep : ascii;
  c_alt : option ascii
}.

(** [fs.os = OSType.LINUX / WINDOWS / MACOS], 922-938. *)
Definition posix_cfg : cfg := mkcfg false false true slash None.
Definition windows_cfg : cfg := mkcfg true false false backslash (Some slash).
Definition macos_cfg : cfg := mkcfg false true false slash None.

Section Paths.
Variable c : cfg.

Definition sep : ascii := c_sep c.

(** [self.root.name]: the root directory is created with
    [FakeDirectory(self.path_separator)], 893 and 942. *)
Definition root_name : str := [sep].

Definition dot : str := [dotc].
Definition dotdot : str := [dotc; dotc].

(** _starts_with_sep, 1016-1021. *)
Definition starts_with_sep (p : str) : bool :=
  starts_with [sep] p ||
  match c_alt c with Some a => starts_with [a] p | None => false end.

(** _normalize_path_sep, 1367-1371. *)
Definition normalize_path_sep (p : str) : str :=
  match c_alt c with
  | None => p
  | Some a => replace_char a sep p      (* identity on the empty path *)
  end.

(** normcase, 1373-1386. *)
Definition normcase (p : str) : str := normalize_path_sep p.

(** splitdrive, 1551-1586.  [path.find(sep, 2)] is searched in the suffix
    [skipn 2 path]. *)
Definition splitdrive (p : str) : str * str :=
  if c_win c then
    if 2 <=? length p then
      let p := normcase p in
      if str_eqb (firstn 2 p) [sep; sep] && negb (str_eqb (firstn 1 (skipn 2 p)) [sep]) then
        match find_char sep (skipn 2 p) with
        | None => ([], p)
        | Some i =>
            let sep_index := 2 + i in
            match find_char sep (skipn (S sep_index) p) with
            | Some 0 => ([], p)
            | Some j => let k := S sep_index + j in (firstn k p, skipn k p)
            | None => (p, [])
            end
        end
      else if str_eqb (firstn 1 (skipn 1 p)) [colon] then (firstn 2 p, skipn 2 p)
      else ([], p)
    else ([], p)
  else ([], p).

(** One iteration of the loop of normpath, 1420-1432.  [acc] is
    [collapsed_path_components] reversed. *)
Definition collapse_step (isabs : bool) (acc : list str) (comp : str) : list str :=
  if str_eqb comp [] || str_eqb comp dot then acc
  else if str_eqb comp dotdot then
    match acc with
    | top :: rest =>
        if negb (str_eqb top dotdot) then rest
        else if isabs then acc else comp :: acc
    | [] => if isabs then acc else comp :: acc
    end
  else comp :: acc.

Definition collapse (isabs : bool) (comps : list str) : list str :=
  rev (fold_left (collapse_step isabs) comps []).

(** normpath, 1388-1435. *)
Definition normpath (p : str) : str :=
  let p := normcase p in
  let (drive, p) := splitdrive p in
  let isabs := starts_with [sep] p in
  let collapsed := join_with [sep] (collapse isabs (split_on sep p)) in
  let collapsed := if isabs then sep :: collapsed else collapsed in
  match drive ++ collapsed with
  | [] => dot
  | r => r
  end.

(** _starts_with_drive_letter, 1693-1717 (on a Linux host).  Note that the
    code evaluates [file_path[:1].isalpha] without calling it, so any first
    character is accepted. *)
Definition starts_with_drive_letter (p : str) : bool :=
  (2 <=? length p) && str_eqb (firstn 1 (skipn 1 p)) [colon] && c_win c.

(** _starts_with_root_path, 1719-1725. *)
Definition starts_with_root_path (p : str) : bool :=
  let p := normalize_path_sep p in
  starts_with root_name p
  || (negb (c_cs c) && starts_with (lower root_name) (lower p))
  || starts_with_drive_letter p.

(** _is_root_path, 1727-1732. *)
Definition is_root_path (p : str) : bool :=
  str_eqb p root_name
  || (negb (c_cs c) && str_eqb (lower p) (lower root_name))
  || ((2 <=? length p) && (length p <=? 3) && starts_with_drive_letter p).

(** absnormpath, 1478-1505, in the current directory [cwd]. *)
Definition absnormpath (cwd p : str) : str :=
  let p := normcase p in
  let p := match p with [] => [sep] | _ => p end in
  let p :=
    if str_eqb p dot then cwd
    else if negb (starts_with_root_path p) then
      join_with [sep] [ (if str_eqb cwd root_name then [] else cwd); p ]
    else p in
  let p := if str_eqb p dot then cwd else p in
  normpath p.

(** Drop trailing empty words: [while not l[-1]: l.pop()] of splitpath, 1537
    (only run on a list with a non-empty word). *)
Fixpoint drop_empty (l : list str) : list str :=
  match l with
  | [] :: l' => drop_empty l'
  | _ => l
  end.
Definition strip_trailing_empty (l : list str) : list str := rev (drop_empty (rev l)).

(** First two fields of [w.split(':')] used in 1530-1532 and 1540-1541. *)
Definition drive_split (w : str) : str * str :=
  match split_on colon w with
  | a :: b :: _ => (a ++ [colon], b)
  | _ => ([], w)                      (* unreachable: there is a colon *)
  end.

(** splitpath, 1507-1549. *)
Definition splitpath (p : str) : str * str :=
  let p := normcase p in
  let comps := split_on sep p in
  let drive := starts_with_drive_letter p in
  let basename := last comps [] in
  match removelast comps with
  | [] => if drive then drive_split basename else ([], basename)
  | rest =>
      if existsb (fun w => negb (str_eqb w [])) rest then
        let rest' := strip_trailing_empty rest in
        match rest' with
        | [w] =>
            if drive && ends_with_char colon w then (w ++ [sep], basename)
            else (w, basename)
        | _ => (join_with [sep] rest', basename)
        end
      else ([sep], basename)
  end.

(** [x in seps] with [seps = [sep, altsep]], for the one-character slices of
    _join_paths_with_drive_support (1594, 1599, 1614, 1619); the empty slice is
    not in the list. *)
Definition opt_in_seps (x : option ascii) : bool :=
  match x with
  | None => false
  | Some x => Ascii.eqb x sep || match c_alt c with Some a => Ascii.eqb x a | None => false end
  end.
Definition first_char (s : str) : option ascii := match s with [] => None | x :: _ => Some x end.
Definition nonempty (s : str) : bool := match s with [] => false | _ => true end.

(** One iteration of _join_paths_with_drive_support, 1597-1616. *)
Definition join_drive_step (acc : str * str) (path : str) : str * str :=
  let (result_drive, result_path) := acc in
  let (drive_part, path_part) := splitdrive path in
  if nonempty path_part && opt_in_seps (first_char path_part) then
    ((if nonempty drive_part || negb (nonempty result_drive) then drive_part else result_drive),
     path_part)
  else
    if nonempty drive_part && negb (str_eqb drive_part result_drive)
       && (c_cs c || negb (str_eqb (lower drive_part) (lower result_drive)))
    then (drive_part, path_part)
    else
      let result_drive :=
        if nonempty drive_part && negb (str_eqb drive_part result_drive)
        then drive_part else result_drive in
      let result_path :=
        if nonempty result_path && negb (opt_in_seps (last_char result_path))
        then result_path ++ [sep] else result_path in
      (result_drive, result_path ++ path_part).

(** _join_paths_with_drive_support, 1588-1622. *)
Definition join_with_drive (base : str) (rest : list str) : str :=
  let (d, r) := fold_left join_drive_step rest (splitdrive base) in
  if nonempty r && negb (opt_in_seps (first_char r)) && nonempty d
     && negb (match last_char d with Some x => Ascii.eqb x colon | None => false end)
  then d ++ [sep] ++ r
  else d ++ r.

(** One iteration of the loop of joinpaths, 1641-1651: [acc] is
    [''.join(joined_path_segments)]; an empty [acc] means an empty list, since
    empty segments are never appended first (an absolute segment is non-empty,
    the others are appended only when non-empty). *)
Definition join_step (acc : str) (seg : str) : str :=
  if starts_with_root_path seg then seg
  else
    let acc := if nonempty acc && negb (ends_with_char sep acc) then acc ++ [sep] else acc in
    acc ++ seg.

(** joinpaths, 1624-1652; [None] for no arguments (IndexError in the code). *)
Definition joinpaths (paths : list str) : option str :=
  match paths with
  | [] => None
  | [p] => Some p
  | p :: ps =>
      if c_win c then Some (join_with_drive p ps)
      else Some (fold_left join_step (p :: ps) [])
  end.

(** _path_components, 1654-1691. *)
Definition path_components (p : str) : list str :=
  if str_eqb p [] || str_eqb p [sep] then []
  else
    let (drive, p) := splitdrive p in
    let comps := split_on sep p in
    let comps :=
      match comps with
      | [] :: [] :: _ => []
      | [] :: rest => rest
      | _ => comps
      end in
    match drive with [] => comps | _ => drive :: comps end.

(** _components_to_path, 1862-1868. *)
Definition components_to_path (comps : list str) : str :=
  let p := join_with [sep] comps in
  if starts_with_root_path p then p else sep :: p.

(** ends_with_path_separator, 1734-1745 (string argument). *)
Definition ends_with_path_separator (p : str) : bool :=
  nonempty p
  && negb (str_eqb p [sep])
  && negb (match c_alt c with Some a => str_eqb p [a] | None => false end)
  && (ends_with_char sep p
      || match c_alt c with Some a => ends_with_char a p | None => false end).

(** _path_without_trailing_separators, 2854-2857: the loop runs at most
    [length p] times. *)
Fixpoint strip_seps (fuel : nat) (p : str) : str :=
  match fuel with
  | O => p
  | S n => if ends_with_path_separator p then strip_seps n (removelast p) else p
  end.
Definition path_without_trailing_separators (p : str) : str := strip_seps (length p) p.

(** FakeFilesystem.make_string_path, 2309-2313, on a Linux host. *)
Definition make_string_path (p : str) : str := replace_char slash sep p.

(** ** fake_pathlib *)

(** [path.lstrip(sep)] *)
Fixpoint lstrip (x : ascii) (p : str) : str :=
  match p with
  | y :: p' => if Ascii.eqb y x then lstrip x p' else p
  | [] => []
  end.

(** _FakeFlavour._splitroot_posix, fake_pathlib.py 210-218. *)
Definition splitroot_posix (p : str) : str * str * str :=
  if match first_char p with Some x => Ascii.eqb x sep | None => false end then
    let stripped := lstrip sep p in
    if length p - length stripped =? 2 then ([], [sep; sep], stripped)
    else ([], [sep], stripped)
  else ([], [], p).

(** _FakeFlavour._split_extended_path, fake_pathlib.py 159-168. *)
Definition ext_prefix : str := [backslash; backslash; "?"%char; backslash].
Definition split_extended_path (p : str) : str * str :=
  if starts_with ext_prefix p then
    let prefix := firstn 4 p in
    let p := skipn 4 p in
    if starts_with (L "UNC" ++ [backslash]) p
    then (prefix ++ firstn 3 p, backslash :: skipn 3 p)
    else (prefix, p)
  else ([], p).

Definition is_drive_letter (x : ascii) : bool :=
  let n := nat_of_ascii x in
  ((65 <=? n) && (n <=? 90)) || ((97 <=? n) && (n <=? 122)).

Definition opt_is (x : option ascii) (a : ascii) : bool :=
  match x with Some y => Ascii.eqb y a | None => false end.

(** _FakeFlavour._splitroot_with_drive, fake_pathlib.py 170-208, on a
    normalised separator. *)
Definition splitroot_drive_tail (prefix p : str) : str * str * str :=
  let first := nth_error p 0 in
  let second := nth_error p 1 in
  let third := nth_error p 2 in
  let has_drv := opt_is second colon &&
                 match first with Some x => is_drive_letter x | None => false end in
  let drv := if has_drv then firstn 2 p else [] in
  let first := if has_drv then third else first in
  let p := if has_drv then skipn 2 p else p in
  if opt_is first sep then (prefix ++ drv, [sep], lstrip sep p)
  else (prefix ++ drv, [], p).

Definition splitroot_with_drive (p : str) : str * str * str :=
  let (prefix, p) :=
    if opt_is (nth_error p 1) sep && opt_is (nth_error p 0) sep
    then split_extended_path p else ([], p) in
  if opt_is (nth_error p 1) sep && opt_is (nth_error p 0) sep
     && negb (opt_is (nth_error p 2) sep)
  then
    match find_char sep (skipn 2 p) with
    | None => splitroot_drive_tail prefix p
    | Some i =>
        let index := 2 + i in
        match find_char sep (skipn (S index) p) with
        | Some 0 => splitroot_drive_tail prefix p
        | o =>
            let index2 := match o with Some j => S index + j | None => length p end in
            match prefix with
            | [] => (firstn index2 p, [sep], skipn (S index2) p)
            | _ => (prefix ++ skipn 1 (firstn index2 p), [sep], skipn (S index2) p)
            end
        end
    end
  else splitroot_drive_tail prefix p.

(** _FakeFlavour.splitroot, fake_pathlib.py 220-226. *)
Definition splitroot (p : str) : str * str * str :=
  if c_win c then splitroot_with_drive p else splitroot_posix p.

(** FakePathModule.isabs, 3233-3238. *)
Definition path_isabs (p : str) : bool :=
  starts_with_sep (if c_win c then snd (splitdrive p) else p).

(** FakePathModule.abspath, 3322-3341.  The two-argument joins never fail. *)
Definition join2 (a b : str) : str :=
  match joinpaths [a; b] with Some r => r | None => [] end.
Definition path_abspath (cwd p : str) : str :=
  let p :=
    if negb (path_isabs p) then join2 cwd p
    else if c_win c && starts_with_sep p then
      if starts_with_drive_letter cwd then join2 (firstn 2 cwd) p else p
    else p in
  normpath p.

End Paths.
