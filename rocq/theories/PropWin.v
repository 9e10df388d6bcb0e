(** * Properties C67-C69: the lexical path functions of a Windows filesystem.

    [win_like c]: [c] is a Windows configuration whose separator is neither a
    dot nor a colon and whose alternative separator, if there is one, is
    another character.  [normcase c p] is [p] with the separator in place of
    the alternative one; [win_drive], [win_rest], [win_join], [win_path],
    [pl_split] are the specification in WinSpec.v, [walk_pos] and [canonical]
    that in PathSpec.v. *)
From Verif Require Import PathModel PathSpec PathProofs PathProofs2 WinSpec WinProofs.

(** ** pathlib *)
Section S.
Variable c : cfg.
Hypothesis Hw : win_like c.
Notation sp := (c_sep c).
Definition flat (prefix p : str) : str * str * str :=
  if opt_is (nth_error p 1) sp && opt_is (nth_error p 0) sp
     && negb (opt_is (nth_error p 2) sp)
  then
    match find_char sp (skipn 2 p) with
    | None => splitroot_drive_tail c prefix p
    | Some i =>
        let index := 2 + i in
        match find_char sp (skipn (S index) p) with
        | Some 0 => splitroot_drive_tail c prefix p
        | o =>
            let index2 := match o with Some j => S index + j | None => length p end in
            match prefix with
            | [] => (firstn index2 p, [sp], skipn (S index2) p)
            | _ => (prefix ++ skipn 1 (firstn index2 p), [sp], skipn (S index2) p)
            end
        end
    end
  else splitroot_drive_tail c prefix p.
Lemma letter_iff x : is_drive_letter x = true <-> letter x.
Proof. unfold is_drive_letter, letter. rewrite orb_true_iff, !andb_true_iff, !Nat.leb_le. reflexivity. Qed.
Lemma root_of r : root_and_rest sp r (if is_abs sp r then [sp] else []) (lstrip sp r).
Proof.
  destruct (lstrip_spec sp r) as (s & H1 & H2 & H3). exists s. split; [exact H2|]. split; [exact H1|].
  assert (K : is_abs sp (lstrip sp r) = false). { destruct (lstrip sp r) as [|y t]; [reflexivity|]. cbn. destruct (Ascii.eqb_spec y sp); [contradiction|reflexivity]. }
  split; [exact K|]. rewrite H2. destruct s as [|x s]; cbn [app]; [rewrite K; reflexivity|]. inversion H1 as [|? ? E _]. subst. cbn. rewrite Ascii.eqb_refl. reflexivity.
Qed.
Lemma lstrip_rel r : is_abs sp r = false -> lstrip sp r = r.
Proof. destruct r as [|x r]; [reflexivity|]. cbn. intros ->. reflexivity. Qed.
Lemma tail_spec prefix p : (forall server t, ~ unc_start sp p server t) ->
  exists d root rel, pl_split sp p d root rel /\ splitroot_drive_tail c prefix p = (prefix ++ d, root, rel) /\ starts_with [sp; sp] d = false.
Proof.
  intros Hu. unfold splitroot_drive_tail. cbv zeta. unfold sep.
  assert (Hnone : (forall x r, p = x :: ":"%char :: r -> ~ letter x) ->
    exists d root rel, pl_split sp p d root rel /\
      (if opt_is (nth_error p 0) sp then (prefix ++ [], [sp], lstrip sp p) else (prefix ++ [], [], p)) = (prefix ++ d, root, rel) /\ starts_with [sp; sp] d = false).
  { intros Hl. exists [], (if is_abs sp p then [sp] else []), (lstrip sp p). split; [apply pl_none; [exact Hl|exact Hu|apply root_of]|]. split; [|reflexivity].
    destruct p as [|x p]; [reflexivity|]. cbn [nth_error opt_is is_abs]. destruct (Ascii.eqb_spec x sp) as [->|Hn]; [reflexivity|].
    rewrite lstrip_rel; [reflexivity|]. cbn. destruct (Ascii.eqb_spec x sp); [contradiction|reflexivity]. }
  destruct p as [|x [|y p]].
  - apply Hnone. intros x r K. discriminate K.
  - cbn [nth_error opt_is andb]. apply Hnone. intros x' r K. discriminate K.
  - change (nth_error (x :: y :: p) 1) with (Some y). change (nth_error (x :: y :: p) 0) with (Some x). change (nth_error (x :: y :: p) 2) with (nth_error p 0).
    cbn [opt_is]. destruct (Ascii.eqb_spec y colon) as [->|Hc]; cbn [andb].
    + destruct (is_drive_letter x) eqn:El.
      * apply letter_iff in El. change (firstn 2 (x :: colon :: p)) with [x; colon]. change (skipn 2 (x :: colon :: p)) with p.
        exists [x; colon], (if is_abs sp p then [sp] else []), (lstrip sp p). split; [apply pl_letter; [exact El|apply root_of]|].
        split.
        -- destruct p as [|z p]; [reflexivity|]. cbn [nth_error opt_is is_abs]. destruct (Ascii.eqb_spec z sp) as [->|Hn]; [reflexivity|].
           rewrite lstrip_rel; [reflexivity|]. cbn. destruct (Ascii.eqb_spec z sp); [contradiction|reflexivity].
        -- cbn. rewrite (colon_sep2 c Hw). apply andb_false_r.
      * apply Hnone. intros x' r [= <- <-] K. apply letter_iff in K. congruence.
    + apply Hnone. intros x' r [= _ K1 _] _. apply Hc. exact K1.
Qed.
Lemma flat_spec prefix p : exists d root rel, pl_split sp p d root rel /\
  flat prefix p = (prefix ++ (match prefix with [] => d | _ => if starts_with [sp; sp] d then tl d else d end), root, rel).
Proof.
  assert (Htail : (forall server t, ~ unc_start sp p server t) -> exists d root rel, pl_split sp p d root rel /\
    splitroot_drive_tail c prefix p = (prefix ++ (match prefix with [] => d | _ => if starts_with [sp; sp] d then tl d else d end), root, rel)).
  { intros Hu. destruct (tail_spec prefix p Hu) as (d & root & rel & H1 & H2 & H3). exists d, root, rel. split; [exact H1|]. rewrite H2, H3. destruct prefix; reflexivity. }
  unfold flat. destruct p as [|x [|y q]]; [apply Htail; intros server t (K & _); discriminate K..|].
  change (nth_error (x :: y :: q) 1) with (Some y). change (nth_error (x :: y :: q) 0) with (Some x). change (nth_error (x :: y :: q) 2) with (nth_error q 0).
  change (skipn 2 (x :: y :: q)) with q. cbn [opt_is].
  destruct (Ascii.eqb_spec y sp) as [->|Hy]; [|apply Htail; intros server t (K & _); injection K as _ K _; contradiction].
  destruct (Ascii.eqb_spec x sp) as [->|Hx]; [|apply Htail; intros server t (K & _); injection K as K _; contradiction]. cbn [andb].
  destruct (negb (opt_is (nth_error q 0) sp)) eqn:E3.
  2:{ apply Htail. intros server t (K & K2 & K3 & _). injection K as K. rewrite K in E3. destruct server as [|z server]; [congruence|]. cbn in E3.
      destruct (Ascii.eqb_spec z sp) as [->|]; [apply K3; left; reflexivity|discriminate E3]. }
  destruct (find_char sp q) as [i|] eqn:Ei.
  2:{ apply Htail. intros server t (K & _). injection K as K. apply (find_char_none _ _ Ei). rewrite K. apply in_or_app. right. left. reflexivity. }
  destruct (find_char_spec _ _ _ Ei) as (Hi & Hni & (r & Er)).
  assert (Hs1 : skipn (S (2 + i)) (sp :: sp :: q) = r).
  { change (skipn (S (2 + i)) (sp :: sp :: q)) with (skipn (S i) q). rewrite skipn_S_tl, Er. reflexivity. }
  cbv zeta. rewrite Hs1.
  assert (Eq : q = firstn i q ++ sp :: r) by (rewrite <- Er, firstn_skipn; reflexivity).
  assert (Hne : firstn i q <> []).
  { intros K. destruct i; [|destruct q; [cbn in Hi; lia|discriminate K]]. cbn in Er. rewrite Er in E3. cbn in E3. rewrite Ascii.eqb_refl in E3. discriminate. }
  assert (Hlen : length (firstn i q) = i) by (apply firstn_length_le; lia).
  set (server := firstn i q) in *. clearbody server. subst q. clear Er Ei Hs1.
  assert (Hcase : forall share r', r = share ++ r' -> ~ In sp share -> (r' = [] \/ (share <> [] /\ is_abs sp r' = true)) ->
    forall k, k = length (sp :: sp :: server ++ sp :: share) ->
    exists d root rel, pl_split sp (sp :: sp :: server ++ sp :: r) d root rel /\
     (match prefix with [] => (firstn k (sp :: sp :: server ++ sp :: r), [sp], skipn (S k) (sp :: sp :: server ++ sp :: r))
       | _ => (prefix ++ skipn 1 (firstn k (sp :: sp :: server ++ sp :: r)), [sp], skipn (S k) (sp :: sp :: server ++ sp :: r)) end) =
      (prefix ++ (match prefix with [] => d | _ => if starts_with [sp; sp] d then tl d else d end), root, rel)).
  { intros share r' -> H1 H2 k ->. set (d := sp :: sp :: server ++ sp :: share).
    assert (Ed : sp :: sp :: server ++ sp :: share ++ r' = d ++ r') by (unfold d; cbn [app]; rewrite <- app_assoc; reflexivity).
    rewrite Ed. destruct (firstn_skipn_exact d r' _ eq_refl) as [K1 K2]. rewrite K1, skipn_S_tl, K2.
    exists d, [sp], (tl r'). split; [apply pl_unc; assumption|]. destruct prefix as [|z prefix]; [reflexivity|].
    replace (starts_with [sp; sp] d) with true by (unfold d; cbn; rewrite Ascii.eqb_refl; reflexivity). reflexivity. }
  assert (Hl : forall share, length (sp :: sp :: server ++ sp :: share) = S (2 + i) + length share).
  { intros share. cbn [length]. rewrite app_length. cbn [length]. lia. }
  destruct (find_char sp r) as [j|] eqn:Ej.
  - destruct (find_char_spec _ _ _ Ej) as (Hj & Hnj & (r2 & Er2)).
    assert (Er : r = firstn j r ++ sp :: r2) by (rewrite <- Er2, firstn_skipn; reflexivity).
    assert (Hlj : length (firstn j r) = j) by (apply firstn_length_le; lia).
    destruct j as [|j].
    + apply Htail. cbn [firstn app] in Er. subst r. intros server' t (K & K2 & K3 & K4). injection K as K.
      assert (Ew : server = server' /\ sp :: r2 = t).
      { clear - K Hni K3. revert server' K K3. induction server as [|a server IH]; intros [|b server'] K K3; cbn [app] in K; [injection K as K1; auto|injection K as K1 K2..].
        - subst b. destruct K3. left. reflexivity.
        - subst a. destruct Hni. left. reflexivity.
        - subst b. destruct (IH (fun h => Hni (or_intror h)) server' K2 (fun h => K3 (or_intror h))) as [-> ->]. auto. }
      destruct Ew as [_ <-]. cbn in K4. rewrite Ascii.eqb_refl in K4. discriminate.
    + apply (Hcase (firstn (S j) r) (sp :: r2) Er Hnj); [|rewrite Hl, Hlj; reflexivity]. right. split; [intros K; rewrite K in Hlj; discriminate|]. cbn. apply Ascii.eqb_refl.
  - apply (Hcase r []); [symmetry; apply app_nil_r|apply (find_char_none _ _ Ej)|left; reflexivity|reflexivity].
Qed.
Lemma split_flat p : (forall q, p <> ext_prefix ++ q) -> splitroot c p = flat [] p.
Proof.
  intros Hp. unfold splitroot. rewrite (wl_win c Hw). unfold splitroot_with_drive.
  assert (E : split_extended_path p = ([], p)).
  { unfold split_extended_path. destruct (starts_with ext_prefix p) eqn:E; [|reflexivity]. apply starts_with_spec in E. destruct E as [t Et]. destruct (Hp t Et). }
  rewrite E. destruct (opt_is (nth_error p 1) (sep c) && opt_is (nth_error p 0) (sep c)) eqn:E2; unfold flat, sep in *; rewrite E2; reflexivity.
Qed.
Lemma split_ext q : sp = backslash -> (forall t, q <> L "UNC\" ++ t) -> splitroot c (ext_prefix ++ q) = flat ext_prefix q.
Proof.
  intros Hs Hq. unfold splitroot. rewrite (wl_win c Hw). unfold splitroot_with_drive.
  assert (E : split_extended_path (ext_prefix ++ q) = (ext_prefix, q)).
  { unfold split_extended_path. change (starts_with ext_prefix (ext_prefix ++ q)) with true. cbv iota zeta. change (skipn 4 (ext_prefix ++ q)) with q.
    change (firstn 4 (ext_prefix ++ q)) with ext_prefix. destruct (starts_with (L "UNC" ++ [backslash]) q) eqn:E; [|reflexivity].
    apply starts_with_spec in E. destruct E as [t Et]. destruct (Hq t Et). }
  rewrite E. unfold sep. rewrite Hs. change (opt_is (nth_error (ext_prefix ++ q) 1) backslash && opt_is (nth_error (ext_prefix ++ q) 0) backslash) with true.
  cbv iota zeta. unfold flat. rewrite Hs. reflexivity.
Qed.
Lemma split_ext_unc q : sp = backslash -> splitroot c (ext_prefix ++ L "UNC\" ++ q) = flat (ext_prefix ++ L "UNC") (L "\\" ++ q).
Proof.
  intros Hs. unfold splitroot. rewrite (wl_win c Hw). unfold splitroot_with_drive. unfold sep. rewrite Hs.
  change (opt_is (nth_error (ext_prefix ++ L "UNC\" ++ q) 1) backslash && opt_is (nth_error (ext_prefix ++ L "UNC\" ++ q) 0) backslash) with true.
  change (split_extended_path (ext_prefix ++ L "UNC\" ++ q)) with (ext_prefix ++ L "UNC", L "\\" ++ q).
  cbv iota zeta. unfold flat. rewrite Hs. reflexivity.
Qed.
End S.

(** ** C67 *)
(** the alternative separator is the separator *)
Theorem C67_normcase : forall c, win_like c -> forall p,
  normcase c p = map (fun x => match c_alt c with Some a => if Ascii.eqb x a then c_sep c else x | None => x end) p.
Proof.
  intros c Hw p. unfold normcase, normalize_path_sep. destruct (c_alt c); [reflexivity|]. symmetry. apply map_id.
Qed.
Print Assumptions C67_normcase.

(** splitdrive gives the drive, which there is exactly one of, of every path *)
Theorem C67_splitdrive : forall c, win_like c -> forall p,
  win_drive (c_sep c) (normcase c p) (fst (splitdrive c p)) (normcase c (snd (splitdrive c p))) /\
  (forall d r, win_drive (c_sep c) (normcase c p) d r ->
     d = fst (splitdrive c p) /\ r = normcase c (snd (splitdrive c p))).
Proof.
  intros c Hw p. destruct (splitdrive_normcase c Hw p) as [E _]. pose proof (splitdrive_win c Hw p) as K. rewrite E in K. cbn [fst snd] in K.
  split; [exact K|]. intros d r H. apply (win_drive_unique c Hw (normcase c p)); [apply normcase_normal, Hw|exact H|exact K].
Qed.
Print Assumptions C67_splitdrive.

(** normpath keeps the drive and what the rest means, makes the rest canonical
    and does nothing the second time *)
Theorem C67_normpath_partial : forall c, win_like c -> forall p d r,
  win_drive (c_sep c) (normcase c p) d r -> ~ In ":"%char r ->
  exists r', normpath c p = d ++ r' /\
    win_drive (c_sep c) (normpath c p) d r' /\
    win_rest (c_sep c) d r' /\
    is_abs (c_sep c) r' = is_abs (c_sep c) r /\
    (forall pos, walk_pos (c_sep c) pos r' = walk_pos (c_sep c) pos r) /\
    (forall a, c_alt c = Some a -> ~ In a (normpath c p)) /\
    normpath c (normpath c p) = normpath c p.
Proof.
  intros c Hw p d r Hd Hc. destruct (normpath_win c Hw p d r Hd Hc) as (r' & H1 & H2 & _ & H4 & H5 & H6 & H7 & H8).
  exists r'. repeat (split; [assumption|]). exact H8.
Qed.
Print Assumptions C67_normpath_partial.

(** two paths on the same drive normalize alike if they mean the same *)
Lemma rest_unique c' : win_like c' -> forall d r r', win_rest (c_sep c') d r -> win_rest (c_sep c') d r' ->
  is_abs (c_sep c') r = is_abs (c_sep c') r' -> (forall pos, walk_pos (c_sep c') pos r = walk_pos (c_sep c') pos r') -> r = r'.
Proof.
  intros Hw d r r' H H' Ha Hk.
  assert (Hu : forall a b, canonical (c_sep c') a -> canonical (c_sep c') b -> is_abs (c_sep c') a = is_abs (c_sep c') b ->
    (forall pos, walk_pos (c_sep c') pos a = walk_pos (c_sep c') pos b) -> a = b).
  { exact (canonical_unique (pc c') (pc_like c' Hw)). }
  destruct d as [|z d]; [apply Hu; assumption|]. cbn [win_rest] in H, H'.
  assert (Hdot : is_abs (c_sep c') (L ".") = false). { cbn. destruct (Ascii.eqb_spec "."%char (c_sep c')) as [E|]; [destruct (wl_dot c' Hw); symmetry; exact E|reflexivity]. }
  assert (Hwd : forall pos, walk_pos (c_sep c') pos (L ".") = pos).
  { intros pos. unfold walk_pos. rewrite Hdot. cbn. destruct (Ascii.eqb_spec "."%char (c_sep c')) as [E|]; [destruct (wl_dot c' Hw); symmetry; exact E|reflexivity]. }
  destruct H as [->|[H Hn]]; destruct H' as [->|[H' Hn']].
  - reflexivity.
  - destruct Hn'. symmetry. apply Hu; [apply can_dot|exact H'|rewrite Hdot; exact Ha|]. intros pos. rewrite Hwd. exact (Hk pos).
  - destruct Hn. apply Hu; [exact H|apply can_dot|rewrite Hdot; exact Ha|]. intros pos. rewrite Hwd. exact (Hk pos).
  - apply Hu; assumption.
Qed.
Theorem C67_normpath_complete_partial : forall c, win_like c -> forall p q d r r',
  win_drive (c_sep c) (normcase c p) d r -> win_drive (c_sep c) (normcase c q) d r' ->
  ~ In ":"%char r -> ~ In ":"%char r' -> is_abs (c_sep c) r = is_abs (c_sep c) r' ->
  (forall pos, walk_pos (c_sep c) pos r = walk_pos (c_sep c) pos r') -> normpath c p = normpath c q.
Proof.
  intros c Hw p q d r r' H H' Hc Hc' Ha Hk.
  destruct (normpath_win c Hw p d r H Hc) as (s & E & _ & _ & H1 & H2 & H3 & _).
  destruct (normpath_win c Hw q d r' H' Hc') as (s' & E' & _ & _ & H1' & H2' & H3' & _).
  rewrite E, E'. f_equal. apply (rest_unique c Hw d); [exact H1|exact H1'|rewrite H2, H2'; exact Ha|]. intros pos. rewrite H3, H3'. apply Hk.
Qed.
Print Assumptions C67_normpath_complete_partial.

(** With a colon in a name this is not so: [.\c:.\a] becomes [c:.\a], on the
    drive [c:], and then [c:a]. *)
Theorem C67_colon_refuted : ~ (forall c, win_like c -> forall p, fst (splitdrive c (normpath c p)) = fst (splitdrive c p)) /\
  ~ (forall c, win_like c -> forall p, normpath c (normpath c p) = normpath c p).
Proof.
  split; intros H; specialize (H windows_cfg windows_cfg_like (L ".\c:.\a")); vm_compute in H; discriminate H.
Qed.
Print Assumptions C67_colon_refuted.

Example C67_case : win_like windows_cfg /\
  win_drive backslash (normcase windows_cfg (L "C:/a\.\..//b/")) (L "C:") (L "\a\.\..\\b\") /\ ~ In ":"%char (L "\a\.\..\\b\") /\
  normpath windows_cfg (L "C:/a\.\..//b/") = L "C:\b" /\
  win_drive backslash (normcase windows_cfg (L "//srv/share/x/..")) (L "\\srv\share") (L "\x\..") /\
  normpath windows_cfg (L "//srv/share/x/..") = L "\\srv\share\" /\
  normpath windows_cfg (L "d:x/..") = L "d:".
Proof.
  split; [exact windows_cfg_like|]. split; [apply wd_letter|]. split; [intros K; repeat (destruct K as [K|K]; [discriminate K|]); exact K|]. split; [reflexivity|].
  split; [|split; reflexivity].
  apply (wd_unc backslash (L "srv") (L "share") (L "\x\..")).
  - discriminate.
  - intros K. repeat (destruct K as [K|K]; [discriminate K|]). exact K.
  - intros K. repeat (destruct K as [K|K]; [discriminate K|]). exact K.
  - right. split; [discriminate|reflexivity].
Qed.

(** ** C68 *)
(** joining any number of paths: their drives and rests joined one by one *)
Theorem C68_join : forall c, win_like c -> forall p q ps dp rp qs,
  win_drive (c_sep c) (normcase c p) dp rp ->
  Forall2 (fun q x => win_drive (c_sep c) (normcase c q) (fst x) (snd x)) (q :: ps) qs ->
  exists r, joinpaths c (p :: q :: ps) = Some r /\
    normcase c r = win_path (c_sep c) (fold_left (win_join (c_sep c) (negb (c_cs c))) qs (dp, rp)).
Proof.
  intros c Hw p q ps dp rp qs Hp Hqs. exists (join_with_drive c p (q :: ps)). split.
  - cbn [joinpaths]. rewrite (wl_win c Hw). reflexivity.
  - rewrite (join_normcase c Hw). apply (join_with_drive_win c Hw (normcase c p) (map (normcase c) (q :: ps))).
    + constructor; [apply normcase_normal, Hw|]. apply Forall_forall. intros x Hx. apply in_map_iff in Hx. destruct Hx as (y & <- & _). apply normcase_normal, Hw.
    + exact Hp.
    + clear - Hqs. induction Hqs; constructor; assumption.
Qed.
Print Assumptions C68_join.

(** an absolute path on a drive replaces everything before it *)
Theorem C68_absolute_wins : forall c, win_like c -> forall p ps q qs d r,
  win_drive (c_sep c) q d r -> (forall a, c_alt c = Some a -> ~ In a q) ->
  d <> [] -> is_abs (c_sep c) r = true ->
  joinpaths c (p :: ps ++ q :: qs) = joinpaths c (q :: qs).
Proof. intros c Hw p ps q qs d r H Hn Hd Ha. exact (join_abs_wins c Hw p ps q qs d r Hn H Hd Ha). Qed.
Print Assumptions C68_absolute_wins.

(** a path is absolute if it is so after its drive *)
Theorem C68_isabs : forall c, win_like c -> forall p d r, win_drive (c_sep c) (normcase c p) d r ->
  path_isabs c p = is_abs (c_sep c) r.
Proof. exact isabs_win. Qed.
Print Assumptions C68_isabs.

(** abspath: the drive is that of the path or else that of the current
    directory; the rest is absolute, canonical and means what the path means
    from the current directory *)
Theorem C68_abspath_partial : forall c, win_like c -> forall cwd dc rc p d r,
  (forall a, c_alt c = Some a -> ~ In a cwd) ->
  win_drive (c_sep c) cwd dc rc -> canonical (c_sep c) rc -> is_abs (c_sep c) rc = true -> ~ In ":"%char rc ->
  win_drive (c_sep c) (normcase c p) d r -> ~ In ":"%char r ->
  (is_abs (c_sep c) r = true -> d = [] -> length dc <= 2) ->
  (is_abs (c_sep c) r = false -> d = [] \/ ((exists x, d = [x; ":"%char]) /\ same_drive (negb (c_cs c)) d dc = true)) ->
  exists r', path_abspath c cwd p = (match d with [] => dc | _ => d end) ++ r' /\
    splitdrive c (path_abspath c cwd p) = (match d with [] => dc | _ => d end, r') /\
    is_abs (c_sep c) r' = true /\ canonical (c_sep c) r' /\
    (forall pos, walk_pos (c_sep c) pos r' = walk_pos (c_sep c) (walk_pos (c_sep c) [] rc) r).
Proof. intros c Hw cwd dc rc p d r Hn. apply (abspath_win c Hw cwd dc rc p d r Hn). Qed.
Print Assumptions C68_abspath_partial.

(** A path relative to another drive than that of the current directory stays
    relative, and a rooted path without a drive loses the network share. *)
Theorem C68_other_drive_refuted : ~ (forall c, win_like c -> forall cwd p, path_isabs c cwd = true -> path_isabs c (path_abspath c cwd p) = true).
Proof.
  intros H. specialize (H windows_cfg windows_cfg_like (L "C:\x") (L "d:foo") eq_refl). vm_compute in H. discriminate H.
Qed.
Theorem C68_share_refuted : ~ (forall c, win_like c -> forall cwd p, path_isabs c cwd = true -> fst (splitdrive c p) = [] ->
  fst (splitdrive c (path_abspath c cwd p)) = fst (splitdrive c cwd)).
Proof.
  intros H. specialize (H windows_cfg windows_cfg_like (L "\\srv\share\x") (L "\y") eq_refl eq_refl). vm_compute in H. discriminate H.
Qed.

Example C68_case : joinpaths windows_cfg [L "C:/a"; L "c:b"; L "d\"] = Some (L "c:\a\b\d\") /\
  joinpaths windows_cfg [L "C:/a"; L "D:b"; L "\e"; L "f"] = Some (L "D:\e\f") /\
  joinpaths windows_cfg [L "C:/a"; L "//srv/share"; L "f"] = Some (L "\\srv\share\f") /\
  path_abspath windows_cfg (L "C:\x\y") (L "../z/.") = L "C:\x\z" /\
  path_abspath windows_cfg (L "C:\x\y") (L "/z") = L "C:\z" /\
  path_abspath windows_cfg (L "C:\x\y") (L "c:z") = L "c:\x\y\z" /\
  win_drive backslash (L "C:\x\y") (L "C:") (L "\x\y") /\ canonical backslash (L "\x\y") /\
  win_drive backslash (normcase windows_cfg (L "../z/.")) [] (L "..\z\.") /\
  path_isabs windows_cfg (L "C:/a") = true /\ path_isabs windows_cfg (L "C:a") = false.
Proof.
  repeat (split; [reflexivity|]). split; [apply wd_letter|]. split; [|split; [|split; reflexivity]].
  - apply (can_abs backslash [L "x"; L "y"]); [discriminate|]. repeat constructor; try discriminate; intros [K|K]; try discriminate K; exact K.
  - apply (wd_none backslash (L "..\z\.")); [discriminate|]. intros server t (K & _). discriminate K.
Qed.

(** ** C69 *)
(** pathlib takes every path without the extended prefix apart into drive, root
    and rest *)
Theorem C69_splitroot : forall c, win_like c -> forall p, (forall q, p <> L "\\?\" ++ q) ->
  exists d root rel, splitroot c p = (d, root, rel) /\ pl_split (c_sep c) p d root rel.
Proof.
  intros c Hw p Hp. rewrite (split_flat c Hw p Hp). destruct (flat_spec c Hw [] p) as (d & root & rel & H1 & H2). exists d, root, rel. split; [exact H2|exact H1].
Qed.
Print Assumptions C69_splitroot.

(** with the extended prefix, which becomes a part of the drive *)
Theorem C69_extended : forall c, win_like c -> c_sep c = "\"%char -> forall q,
  (forall t, q <> L "UNC\" ++ t) ->
  exists d root rel, pl_split (c_sep c) q d root rel /\
    splitroot c (L "\\?\" ++ q) = (L "\\?\" ++ (if starts_with (L "\\") d then tl d else d), root, rel).
Proof.
  intros c Hw Hs q Hq. change (L "\\?\" ++ q) with (ext_prefix ++ q). rewrite (split_ext c Hw q Hs Hq). destruct (flat_spec c Hw ext_prefix q) as (d & root & rel & H1 & H2). exists d, root, rel.
  split; [exact H1|]. rewrite H2, Hs. reflexivity.
Qed.
Theorem C69_extended_unc : forall c, win_like c -> c_sep c = "\"%char -> forall q,
  exists d root rel, pl_split (c_sep c) (L "\\" ++ q) d root rel /\
    splitroot c (L "\\?\UNC\" ++ q) = (L "\\?\UNC" ++ (if starts_with (L "\\") d then tl d else d), root, rel).
Proof.
  intros c Hw Hs q. change (L "\\?\UNC\" ++ q) with (ext_prefix ++ L "UNC\" ++ q). rewrite (split_ext_unc c Hw q Hs).
  destruct (flat_spec c Hw (ext_prefix ++ L "UNC") (L "\\" ++ q)) as (d & root & rel & H1 & H2). exists d, root, rel.
  split; [exact H1|]. rewrite H2, Hs. reflexivity.
Qed.
Print Assumptions C69_extended.
Print Assumptions C69_extended_unc.

(** the drive is that of os.path.splitdrive, unless that is no letter *)
Theorem C69_same_drive : forall c, win_like c -> forall p d root rel d' r',
  pl_split (c_sep c) p d root rel -> win_drive (c_sep c) p d' r' -> (forall a, c_alt c = Some a -> ~ In a p) ->
  d = d' \/ (d = [] /\ exists x, d' = [x; ":"%char] /\ ~ letter x).
Proof.
  intros c Hw p d root rel d' r' H H' Hn.
  assert (Hu : forall e r, win_drive (c_sep c) p e r -> e = d').
  { intros e r K. apply (win_drive_unique c Hw p e r d' r' Hn K H'). }
  destruct H as [server share r H1 H2 H3 H4|x r root rel Hx Hr|p root rel Hl Hu2 Hr].
  - left. apply (Hu _ r). apply wd_unc; assumption.
  - left. apply (Hu _ r). apply wd_letter.
  - destruct p as [|x [|y p]].
    + left. apply (Hu _ []). apply wd_none; [discriminate|exact Hu2].
    + left. apply (Hu _ [x]). apply wd_none; [discriminate|exact Hu2].
    + destruct (Ascii.eqb_spec y ":"%char) as [->|Hy].
      * right. split; [reflexivity|]. exists x. split; [symmetry; apply (Hu _ p); apply wd_letter|]. apply (Hl x p). reflexivity.
      * left. apply (Hu _ (x :: y :: p)). apply wd_none; [|exact Hu2]. cbn. intros [= K]. exact (Hy K).
Qed.
Print Assumptions C69_same_drive.

(** taking the parts put together apart again gives the parts *)
Lemma pl_det c : win_like c -> forall p d root rel, pl_split (c_sep c) p d root rel -> (forall q, p <> L "\\?\" ++ q) ->
  splitroot c p = (d, root, rel).
Proof.
  intros Hw p d root rel H Hp. destruct (C69_splitroot c Hw p Hp) as (d2 & root2 & rel2 & E & H'). rewrite E. clear E Hp.
  assert (Hrr : forall r a b a' b', root_and_rest (c_sep c) r a b -> root_and_rest (c_sep c) r a' b' -> a = a' /\ b = b').
  { intros r a b a' b' (s & -> & Hs & Hb & ->) (s' & E & Hs' & Hb' & ->).
    assert (K : s = s' /\ b = b').
    { revert s' E Hs'. induction Hs as [|x s -> Hs IH]; intros s' E Hs'.
      - destruct Hs' as [|y s' -> Hs']; [auto|]. exfalso. cbn [app] in E. rewrite E in Hb. cbn in Hb. rewrite Ascii.eqb_refl in Hb. discriminate.
      - destruct Hs' as [|y s' -> Hs'].
        + exfalso. cbn [app] in E. rewrite <- E in Hb'. cbn in Hb'. rewrite Ascii.eqb_refl in Hb'. discriminate.
        + cbn [app] in E. injection E as E. destruct (IH s' E Hs') as [-> ->]. auto. }
    destruct K as [-> ->]. auto. }
  assert (Hunc : forall server share r, server <> [] -> ~ In (c_sep c) server -> ~ In (c_sep c) share -> (r = [] \/ (share <> [] /\ is_abs (c_sep c) r = true)) ->
    unc_start (c_sep c) ((c_sep c :: c_sep c :: server ++ c_sep c :: share) ++ r) server (share ++ r)).
  { intros server share r H1 H2 H3 H4. split; [cbn [app]; rewrite <- app_assoc; reflexivity|]. split; [exact H1|]. split; [exact H2|].
    destruct share as [|z share]; [destruct H4 as [->|[K _]]; [reflexivity|congruence]|]. cbn. destruct (Ascii.eqb_spec z (c_sep c)) as [->|]; [destruct H3; left; reflexivity|reflexivity]. }
  assert (Hcut : forall a b s t, ~ In (c_sep c) a -> ~ In (c_sep c) b -> a ++ c_sep c :: s = b ++ c_sep c :: t -> a = b /\ s = t).
  { induction a as [|x a IH]; intros [|y b] s t Ha Hb E; cbn [app] in E.
    - injection E as E. auto.
    - injection E as E1 E2. destruct Hb. left. symmetry. exact E1.
    - injection E as E1 E2. destruct Ha. left. exact E1.
    - injection E as -> E2. destruct (IH b s t (fun h => Ha (or_intror h)) (fun h => Hb (or_intror h)) E2) as [-> ->]. auto. }
  destruct H as [server share r H1 H2 H3 H4|x r root rel Hx Hr|p root rel Hl Hu Hr].
  - remember ((c_sep c :: c_sep c :: server ++ c_sep c :: share) ++ r) as p eqn:Ep.
    destruct H' as [server' share' r' H1' H2' H3' H4'|x r' root' rel' Hx' Hr'|p root' rel' Hl' Hu' Hr'].
    + cbn [app] in Ep. injection Ep as Ep. rewrite <- !app_assoc in Ep. cbn [app] in Ep. destruct (Hcut _ _ _ _ H2' H2 Ep) as [-> Es].
      assert (K : share' = share /\ r' = r).
      { destruct H4 as [->|[N A]]; destruct H4' as [->|[N' A']].
        - rewrite !app_nil_r in Es. auto.
        - destruct r' as [|z r']; [discriminate|]. cbn in A'. apply Ascii.eqb_eq in A'. subst z. exfalso. apply H3. rewrite app_nil_r in Es. rewrite <- Es. apply in_or_app. right. left. reflexivity.
        - destruct r as [|z r]; [discriminate|]. cbn in A. apply Ascii.eqb_eq in A. subst z. exfalso. apply H3'. rewrite app_nil_r in Es. rewrite Es. apply in_or_app. right. left. reflexivity.
        - destruct r as [|z r]; [discriminate|]. destruct r' as [|z' r']; [discriminate|]. cbn in A, A'. apply Ascii.eqb_eq in A, A'. subst z z'.
          destruct (Hcut _ _ _ _ H3' H3 Es) as [-> ->]. auto. }
      destruct K as [-> ->]. reflexivity.
    + exfalso. injection Ep as _ K _. apply (wl_colon c Hw). symmetry. exact K.
    + exfalso. rewrite Ep in Hu'. apply (Hu' server (share ++ r)). apply Hunc; assumption.
  - remember (x :: ":"%char :: r) as p eqn:Ep. destruct H' as [server' share' r' H1' H2' H3' H4'|x' r' root' rel' Hx' Hr'|p root' rel' Hl' Hu' Hr'].
    + exfalso. injection Ep as _ K _. apply (wl_colon c Hw). exact K.
    + injection Ep as -> ->. destruct (Hrr _ _ _ _ _ Hr Hr') as [-> ->]. reflexivity.
    + exfalso. apply (Hl' x r Ep Hx).
  - destruct H' as [server' share' r' H1' H2' H3' H4'|x' r' root' rel' Hx' Hr'|p root' rel' Hl' Hu' Hr'].
    + exfalso. apply (Hu server' (share' ++ r')). apply Hunc; assumption.
    + exfalso. apply (Hl x' r' eq_refl Hx').
    + destruct (Hrr _ _ _ _ _ Hr Hr') as [-> ->]. reflexivity.
Qed.
Theorem C69_again : forall c, win_like c -> ~ letter (c_sep c) -> forall p d root rel, (forall q, p <> L "\\?\" ++ q) ->
  splitroot c p = (d, root, rel) -> (starts_with [c_sep c; c_sep c] d = true -> ends_with_char (c_sep c) d = false) ->
  splitroot c (d ++ root ++ rel) = (d, root, rel).
Proof.
  intros c Hw Hsl p d root rel Hp E He. destruct (C69_splitroot c Hw p Hp) as (d2 & root2 & rel2 & E2 & H). rewrite E in E2. injection E2 as <- <- <-. clear E.
  assert (Hne : c_sep c <> ":"%char) by exact (wl_colon c Hw).
  destruct H as [server share r H1 H2 H3 H4|x r root rel Hx Hr|p root rel Hl Hu Hr].
  - assert (Hs : share <> []).
    { intros ->. cbn [starts_with] in He. rewrite Ascii.eqb_refl in He. specialize (He eq_refl). change (c_sep c :: c_sep c :: server ++ [c_sep c]) with ((c_sep c :: c_sep c :: server) ++ [c_sep c]) in He.
      unfold ends_with_char in He. unfold last_char in He. rewrite rev_app_distr in He. cbn in He. rewrite Ascii.eqb_refl in He. discriminate. }
    apply pl_det; [exact Hw| |].
    + apply (pl_unc (c_sep c) server share ([c_sep c] ++ tl r)); [assumption..|]. right. split; [exact Hs|]. cbn. apply Ascii.eqb_refl.
    + intros q K. destruct H4 as [->|[_ A]].
      * cbn [tl] in K. rewrite !app_nil_r in *.
        assert (K2 : exists q', c_sep c :: c_sep c :: server ++ c_sep c :: share = L "\\?\" ++ q').
        { cbn [app] in K |- *. injection K as K1 K2 K3. rewrite K1 in *. 
          destruct server as [|a server]; [congruence|]. cbn [app] in K3. injection K3 as -> K3. destruct server as [|b server].
          - cbn [app] in K3 |- *. injection K3 as K3. exists share. reflexivity.
          - exfalso. cbn [app] in K3. injection K3 as K4 _. apply H2. right. left. exact K4. }
        destruct K2 as [q' K2]. apply (Hp q' K2).
      * destruct r as [|z r]; [discriminate|]. cbn in A. apply Ascii.eqb_eq in A. subst z. apply (Hp q). exact K.
  - apply pl_det; [exact Hw| |].
    + cbn [app]. apply pl_letter; [exact Hx|]. destruct Hr as (s & -> & Hs & Hb & ->). exists (match s with [] => [] | _ => [c_sep c] end).
      split; [reflexivity|]. split; [destruct s; repeat constructor|]. split; [exact Hb|]. destruct s; reflexivity.
    + intros q K. cbn [app] in K. injection K as _ K _. discriminate K.
  - cbn [app]. destruct Hr as (s & -> & Hs & Hb & ->). destruct s as [|y s].
    + cbn [app] in *. apply pl_det; [exact Hw| |exact Hp]. apply pl_none; [exact Hl|exact Hu|]. exists []. repeat split; [constructor|exact Hb].
    + apply pl_det; [exact Hw| |].
      * cbn [app]. apply pl_none.
        -- intros x r K. injection K as <- K. exact Hsl.
        -- intros server t (K & _). injection K as K. rewrite K in Hb. cbn in Hb. rewrite Ascii.eqb_refl in Hb. discriminate.
        -- exists [c_sep c]. repeat split; [repeat constructor|exact Hb].
      * intros q K. cbn [app] in K. injection K as K1 K. rewrite K in Hb. cbn in Hb. rewrite K1 in Hb. discriminate.
Qed.
Print Assumptions C69_again.

(** [\\server\] is a drive, but a root after it makes it none *)
Example C69_no_share : splitroot windows_cfg (L "\\server\") = (L "\\server\", L "\", []) /\
  splitroot windows_cfg (L "\\server\\") = ([], L "\", L "server\\").
Proof. split; reflexivity. Qed.

Example C69_case : win_like windows_cfg /\ ~ letter (c_sep windows_cfg) /\
  splitroot windows_cfg (L "c:\\a\b") = (L "c:", L "\", L "a\b") /\
  splitroot windows_cfg (L "c:a\b") = (L "c:", [], L "a\b") /\
  splitroot windows_cfg (L "\\srv\share\a\b") = (L "\\srv\share", L "\", L "a\b") /\
  splitroot windows_cfg (L "\\srv\share") = (L "\\srv\share", L "\", []) /\
  splitroot windows_cfg (L "\\\srv\share") = ([], L "\", L "srv\share") /\
  splitroot windows_cfg (L "1:\a") = ([], [], L "1:\a") /\
  splitroot windows_cfg (L "\\?\c:\a") = (L "\\?\c:", L "\", L "a") /\
  splitroot windows_cfg (L "\\?\UNC\srv\share\a") = (L "\\?\UNC\srv\share", L "\", L "a") /\
  (forall q, L "c:\\a\b" <> L "\\?\" ++ q).
Proof.
  split; [exact windows_cfg_like|]. split; [|repeat (split; [reflexivity|]); intros q K; discriminate K].
  unfold letter. vm_compute. intros [[H1 H2]|[H1 H2]].
  - repeat apply le_S_n in H2. inversion H2.
  - repeat apply le_S_n in H1. inversion H1.
Qed.
