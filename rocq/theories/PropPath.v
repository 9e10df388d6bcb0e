(** * Properties C01-C08: lexical path functions.

    Every theorem ranges over all strings and over every "POSIX like"
    configuration: [posix_like c] says that [c] is not a Windows filesystem,
    has no alternative separator and a separator other than ['.'];
    [posix_abs c] adds that it is case sensitive or uses ['/'] (true for the
    Linux and macOS configurations).  [is_abs], [ordinary], [walk_pos],
    [canonical], [abs_path], [split_spec], [drive_spec] are the specification
    in PathSpec.v. *)
From Verif Require Import PathModel PathSpec PathProofs PathProofs2.

(** C01 *)
Theorem C01_normpath_canonical : forall c, posix_like c -> forall p,
  canonical (c_sep c) (normpath c p) /\
  is_abs (c_sep c) (normpath c p) = is_abs (c_sep c) p /\
  normpath c (normpath c p) = normpath c p.
Proof.
  exact (fun c Hc p => conj (normpath_canonical c Hc p)
           (conj (normpath_is_abs c Hc p) (normpath_idem c Hc p))).
Qed.
Print Assumptions C01_normpath_canonical.

(** a path that is already canonical is not changed *)
Theorem C01_normpath_fixed_points : forall c, posix_like c -> forall p,
  canonical (c_sep c) p -> normpath c p = p.
Proof. exact (fun c Hc p => normpath_fix c Hc p). Qed.
Print Assumptions C01_normpath_fixed_points.

Example C01_case : posix_like posix_cfg /\
  normpath posix_cfg (L "//a/.././../b//./c/") = L "/b/c" /\
  normpath posix_cfg (L "a/../../b/..") = L "..".
Proof. split; [exact posix_cfg_like|split; reflexivity]. Qed.

(** C02 *)
Theorem C02_normpath_meaning : forall c, posix_like c -> forall pos p,
  walk_pos (c_sep c) pos (normpath c p) = walk_pos (c_sep c) pos p.
Proof. exact (fun c Hc pos p => normpath_walk c Hc pos p). Qed.
Print Assumptions C02_normpath_meaning.

(** two paths normalize alike exactly when they mean the same everywhere *)
Theorem C02_normpath_complete : forall c, posix_like c -> forall p q,
  is_abs (c_sep c) p = is_abs (c_sep c) q ->
  (forall pos, walk_pos (c_sep c) pos p = walk_pos (c_sep c) pos q) ->
  normpath c p = normpath c q.
Proof. exact normpath_complete. Qed.
Print Assumptions C02_normpath_complete.

Example C02_case : walk_pos slash [L "y"; L "x"] (L "../z/./w") = [L "w"; L "z"; L "x"].
Proof. reflexivity. Qed.

(** C03 *)
Theorem C03_absnormpath : forall c, posix_abs c -> forall cwd p, is_abs (c_sep c) cwd = true ->
  is_abs (c_sep c) (absnormpath c cwd p) = true /\
  canonical (c_sep c) (absnormpath c cwd p) /\
  absnormpath c cwd (absnormpath c cwd p) = absnormpath c cwd p /\
  (p <> [] -> forall pos,
     walk_pos (c_sep c) pos (absnormpath c cwd p) =
     walk_pos (c_sep c) (walk_pos (c_sep c) [] cwd) p).
Proof. exact absnormpath_all. Qed.
Print Assumptions C03_absnormpath.

(** os.path.abspath in the same terms *)
Theorem C03_abspath : forall c, posix_abs c -> forall cwd p, is_abs (c_sep c) cwd = true ->
  is_abs (c_sep c) (path_abspath c cwd p) = true /\
  canonical (c_sep c) (path_abspath c cwd p) /\
  (forall pos,
     walk_pos (c_sep c) pos (path_abspath c cwd p) =
     walk_pos (c_sep c) (walk_pos (c_sep c) [] cwd) p).
Proof. exact abspath_all. Qed.
Print Assumptions C03_abspath.

Example C03_case : posix_abs macos_cfg /\ is_abs slash (L "/x/y") = true /\
  absnormpath macos_cfg (L "/x/y") (L "../z/.") = L "/x/z" /\
  path_abspath macos_cfg (L "/x/y") (L "../z/.") = L "/x/z".
Proof. split; [exact macos_cfg_abs|repeat split]. Qed.

(** C04 *)
Theorem C04_split : forall c, posix_abs c -> forall p,
  split_spec (c_sep c) p (splitpath c p) /\
  ~ In (c_sep c) (snd (splitpath c p)) /\
  exists q, joinpaths c [fst (splitpath c p); snd (splitpath c p)] = Some q /\
            normpath c q = normpath c p.
Proof. exact split_all. Qed.
Print Assumptions C04_split.

(** joining a directory and a name and splitting again gives both back *)
Theorem C04_join_split : forall c, posix_abs c -> forall names n,
  Forall (ordinary (c_sep c)) (names ++ [n]) ->
  joinpaths c [abs_path (c_sep c) names; n] = Some (abs_path (c_sep c) (names ++ [n])) /\
  splitpath c (abs_path (c_sep c) (names ++ [n])) = (abs_path (c_sep c) names, n).
Proof. exact join_split_abs. Qed.
Print Assumptions C04_join_split.

Example C04_case : splitpath posix_cfg (L "/a//b///c") = (L "/a//b", L "c") /\
  Forall (ordinary slash) ([L "a"] ++ [L "b.txt"]).
Proof.
  split; [reflexivity|].
  repeat constructor; try discriminate; simpl; intros H;
    repeat (destruct H as [H|H]; [discriminate H|]); exact H.
Qed.

(** C05 *)
Theorem C05_join : forall c, posix_abs c -> forall p q,
  joinpaths c [p; q] = Some
    (if is_abs (c_sep c) q then q
     else match p with
          | [] => q
          | _ => if ends_with_char (c_sep c) p then p ++ q else p ++ c_sep c :: q
          end).
Proof. exact join_two. Qed.
Print Assumptions C05_join.

Theorem C05_join_assoc : forall c, posix_abs c -> forall p ps qs,
  exists r, joinpaths c (p :: ps) = Some r /\
            joinpaths c (p :: ps ++ qs) = joinpaths c (r :: qs).
Proof. exact (fun c Ha p ps qs => joinpaths_assoc c (pa_pl c Ha) Ha p ps qs). Qed.
Print Assumptions C05_join_assoc.

Theorem C05_last_absolute_wins : forall c, posix_abs c -> forall p ps q qs,
  is_abs (c_sep c) q = true ->
  joinpaths c (p :: ps ++ q :: qs) = joinpaths c (q :: qs).
Proof. exact (fun c Ha p ps q qs => joinpaths_abs_wins c (pa_pl c Ha) Ha p ps q qs). Qed.
Print Assumptions C05_last_absolute_wins.

Example C05_case : is_abs slash (L "/x") = true /\
  joinpaths posix_cfg [L "a"; L "/x"; L "b"] = Some (L "/x/b").
Proof. split; reflexivity. Qed.

(** C06: every configuration.  On Windows the result is a partition of the
    path with the alternative separators replaced. *)
Theorem C06_splitdrive : forall c p,
  let p' := if c_win c && (2 <=? length p) then normcase c p else p in
  fst (splitdrive c p) ++ snd (splitdrive c p) = p' /\
  drive_spec (c_sep c) p' (fst (splitdrive c p)) (snd (splitdrive c p)) /\
  length p' = length p /\
  (c_alt c = None -> p' = p) /\
  (c_win c = false -> splitdrive c p = ([], p)).
Proof. exact splitdrive_all. Qed.
Print Assumptions C06_splitdrive.

Example C06_case :
  splitdrive windows_cfg (L "c:/foo") = (L "c:", backslash :: L "foo") /\
  splitdrive (mkcfg true false false slash None) (L "//host/share/x") = (L "//host/share", L "/x").
Proof. split; reflexivity. Qed.

(** C07 *)
Theorem C07_splitroot : forall c, c_win c = false -> forall p,
  exists seps rel, p = seps ++ rel /\ all_sep (c_sep c) seps /\
    (match rel with y :: _ => y <> c_sep c | [] => True end) /\
    splitroot c p =
      ([], match length seps with 0 => [] | 2 => [c_sep c; c_sep c] | _ => [c_sep c] end, rel).
Proof. exact splitroot_all. Qed.
Print Assumptions C07_splitroot.

Example C07_case : splitroot posix_cfg (L "///a/b") = ([], L "/", L "a/b") /\
  splitroot posix_cfg (L "//a/b") = ([], L "//", L "a/b").
Proof. split; reflexivity. Qed.

(** C08 *)
Theorem C08_components : forall c, posix_like c -> forall names,
  Forall (ordinary (c_sep c)) names ->
  path_components c (abs_path (c_sep c) names) = names.
Proof. exact (fun c Hc names H => path_components_abs c Hc names H). Qed.
Print Assumptions C08_components.

Theorem C08_unique : forall c, posix_like c -> forall p,
  canonical (c_sep c) p -> is_abs (c_sep c) p = true ->
  exists names, Forall (ordinary (c_sep c)) names /\ p = abs_path (c_sep c) names /\
    forall names', Forall (ordinary (c_sep c)) names' -> p = abs_path (c_sep c) names' -> names' = names.
Proof. exact components_unique. Qed.
Print Assumptions C08_unique.

Example C08_case : path_components posix_cfg (L "/usr/lib/x") = [L "usr"; L "lib"; L "x"].
Proof. reflexivity. Qed.
