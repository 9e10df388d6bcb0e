(** * C55 - C58: os.path.relpath, os.path.realpath, os.path.ismount, sizes of directories.

    Vocabulary: PathSpec.v, FsSpec.v, RealSpec.v; [mounted] is in PropMount.v. *)
From Verif Require Export RealThm CwdThm MountThm PropTree PropOps PropWalk PropMount.
From Coq Require Import List Bool ZArith Lia Ascii FinFun.
Import ListNotations.

(** ** C55 *)

(** relpath(p, start): the answer is a canonical relative path; from [start] it
    leads to [p] (both taken from the current directory), so that joining it to
    [start] gives the path back; and no relative path with fewer components
    does. *)
Theorem C55_relpath_partial : forall c, posix_abs c -> c_sep c = slash ->
  forall cwd p start, is_abs slash cwd = true -> p <> [] ->
  let from := match start with Some q => q | None => cwd end in
  exists r, relpath c cwd p start = Ok r /\ is_abs slash r = false /\ canonical slash r /\
    walk_pos slash (walk_pos slash (walk_pos slash [] cwd) from) r = walk_pos slash (walk_pos slash [] cwd) p /\
    (forall q, is_abs slash q = false ->
       walk_pos slash (walk_pos slash (walk_pos slash [] cwd) from) q = walk_pos slash (walk_pos slash [] cwd) p ->
       length (split_on slash r) <= length (split_on slash q)) /\
    path_abspath c cwd (join2 c from r) = path_abspath c cwd p.
Proof.
  intros c Ha Hs cwd p start Hcwd Hp from.
  destruct (relpath_spec c cwd p start Ha Hs Hcwd Hp) as (r & E & A & B & W & M). fold from in W, M.
  exists r. split; [exact E|]. split; [exact A|]. split; [exact B|]. split; [exact W|]. split; [exact M|].
  rewrite <- Hs in *.
  destruct (abspath_all c Ha cwd (join2 c from r) Hcwd) as (A1 & A2 & A3). destruct (abspath_all c Ha cwd p Hcwd) as (B1 & B2 & B3).
  apply (canonical_unique c (pa_pl _ Ha)); [exact A2|exact B2|rewrite A1, B1; reflexivity|].
  intros pos. rewrite A3, B3. unfold join2. rewrite (joinpaths_two c (pa_pl _ Ha) Ha), A. destruct from as [|x from'] eqn:Ef; [exact W|].
  rewrite (walk_join c Ha _ (x :: from') r) by (try discriminate; exact A). exact W.
Qed.
Print Assumptions C55_relpath_partial.
Example C55_relpath_partial_nonvacuous :
  posix_abs posix_cfg /\ relpath posix_cfg (L "/w/x") (L "../y/z/") (Some (L "/w/x/q")) = Ok (L "../../y/z") /\
  relpath posix_cfg (L "/w/x") (L "/w/x") None = Ok (L ".").
Proof. split; [exact posix_cfg_abs|]. split; vm_compute; reflexivity. Qed.

(** finding 65: with another separator the current directory of the fake
    filesystem is used as it is by the relpath of the host, which knows only
    slashes. *)
Definition bang_cfg : cfg := mkcfg false false true "!"%char None.
Theorem C55_separator_refuted : posix_abs bang_cfg /\ is_abs (c_sep bang_cfg) (L "!foo!b") = true /\
  relpath bang_cfg (L "!foo!b") (L "..!x") None = Ok (L "..!..!x") /\
  path_abspath bang_cfg (L "!foo!b") (join2 bang_cfg (L "!foo!b") (L "..!..!x")) = L "!x" /\
  path_abspath bang_cfg (L "!foo!b") (L "..!x") = L "!foo!x".
Proof. split; [split; [split; [reflexivity|reflexivity|intros K; discriminate K]|left; reflexivity]|]. repeat (split; [vm_compute; reflexivity|]). vm_compute. reflexivity. Qed.
Print Assumptions C55_separator_refuted.

(** ** C56 *)

(** realpath of an absolute path [p] always answers with a canonical absolute
    path, however the links are nested (loops included); when following the
    links comes to an end, the answer is the path arrived at (".." is the parent
    of the directory arrived at), it has no link on it, and realpath of it is
    the same path.  ([fuel] bounds the depth of the recursion, see
    RealpathModel.v; any bound from the number of directory entries on will do.) *)
Theorem C56_realpath_partial : forall c s, linux_like c -> reachable c s ->
  honest_dirs s -> honest_links s -> null_free s -> open_dirs s ->
  forall p, is_abs (c_sep c) p = true -> exists q,
    (forall fuel, count_entries s (f_next s) < fuel -> realpath_n fuel s p = Ok q) /\
    is_abs (c_sep c) q = true /\ canonical (c_sep c) q /\
    forall names, real_path s p names ->
      q = abs_path (c_sep c) names /\
      (forall pre n l rest, ~ meets_link s names pre n l rest) /\
      (forall fuel, count_entries s (f_next s) < fuel -> realpath_n fuel s q = Ok q).
Proof.
  intros c s Hc Hr HD HL HN HO p Hp. destruct (reachable_GP c s Hc Hr) as [HG _].
  assert (Ec : f_cfg s = c) by (apply (reachable_cfg c s Hr)). assert (Es : c_sep c = sepc s) by (unfold sepc; rewrite Ec; reflexivity). rewrite Es in *.
  destruct (realpath_eq s HG HL HD HN HO (S (count_entries s (f_next s))) p Hp ltac:(lia)) as (v & ok & E & Hv & H1 & H2).
  exists (path_abspath (f_cfg s) (f_cwd s) v). split; [intros fuel Hf; apply (realpath_mono (S (count_entries s (f_next s)))); [lia|exact E]|].
  destruct (abspath_all (f_cfg s) (linux_like_abs _ (gi_lin _ HG)) (f_cwd s) v (gi_cwd _ HG)) as (A1 & A2 & _). split; [exact A1|]. split; [exact A2|].
  intros names Hre. unfold real_path in Hre. destruct (real_ev s HL _ _ _ Hre) as [n En]. specialize (H1 (H2 n _ En)). destruct H1 as (pos & k & -> & Hf & Ek).
  assert (Epos : pos = rev names) by (apply (ev_det s k n [] (split_on (sepc s) p)); assumption). subst pos. rewrite (abspath_at s HG (rev names) (proj1 Hf)), rev_involutive.
  split; [reflexivity|]. split; [destruct Hf as [_ Hf]; rewrite rev_involutive in Hf; exact Hf|].
  intros fuel Hfu. assert (Hab : is_abs (sepc s) (abs_path (sepc s) names) = true) by apply Ascii.eqb_refl.
  destruct (realpath_eq s HG HL HD HN HO fuel (abs_path (sepc s) names) Hab ltac:(lia)) as (v & ok' & E' & _ & G1 & G2).
  assert (K : real s [] (split_on (sepc s) (abs_path (sepc s) names)) (rev names)).
  { unfold abs_path. change (sepc s :: join_with [sepc s] names) with ([] ++ sepc s :: join_with [sepc s] names). rewrite split_on_app_sep by (intros []).
    apply real_stay; [left; reflexivity|]. pose proof (LF_real s (rev names) Hf) as K. rewrite rev_involutive in K.
    destruct names as [|w l]; [apply real_stay; [left; reflexivity|constructor]|]. rewrite split_join; [exact K|discriminate|].
    intros v' Hv'. destruct Hf as [Hf _]. rewrite rev_involutive in Hf. rewrite Forall_forall in Hf. apply (Hf v' Hv'). }
  destruct (real_ev s HL _ _ _ K) as [n' En']. destruct (G1 (G2 n' _ En')) as (pos & k' & -> & Hf' & Ek').
  assert (pos = rev names) by (apply (ev_det s k' n' [] (split_on (sepc s) (abs_path (sepc s) names))); assumption). subst pos.
  rewrite E', (abspath_at s HG (rev names) (proj1 Hf)), rev_involutive. reflexivity.
Qed.
Print Assumptions C56_realpath_partial.

(** When no ".." occurs in the path or in a link, the real path leads to the
    object the path leads to. *)
Theorem C56_same_object_partial : forall c s, linux_like c -> reachable c s ->
  honest_dirs s -> honest_links s -> null_free s -> open_dirs s ->
  (forall l t, is_link s l = true -> o_body (ob s l) = BFile (Some t) -> upless (c_sep c) t) ->
  forall p check o, is_abs (c_sep c) p = true -> upless (c_sep c) p -> resolve s p check = Ok o -> o <> devnull_oid ->
  forall fuel, count_entries s (f_next s) < fuel -> exists q, realpath_n fuel s p = Ok q /\ resolve s q check = Ok o.
Proof.
  intros c s Hc Hr HD HL HN HO HT p check o Hp Hup E Ho fuel Hf. destruct (reachable_GP c s Hc Hr) as [HG _].
  assert (Ec : f_cfg s = c) by (apply (reachable_cfg c s Hr)). assert (Es : c_sep c = sepc s) by (unfold sepc; rewrite Ec; reflexivity). rewrite Es in *.
  destruct (resolve_real s HG HL p check o HT Hp Hup E Ho) as (names & Hre & _ & E2). exists (abs_path (sepc s) names). split; [|exact E2].
  destruct (C56_realpath_partial c s Hc Hr HD HL HN HO p) as (q & H1 & _ & _ & H2); [rewrite Es; exact Hp|].
  destruct (H2 names Hre) as (-> & _). rewrite <- Es. apply H1, Hf.
Qed.
Print Assumptions C56_same_object_partial.
Definition c56_ops := [Makedirs (L "/a/b") 511 false; CreateFile (L "/a/b/f") 33188 (Some (L "12345")) None false false;
  Symlink (L "b") (L "/a/n"); Symlink (L "/a/./n") (L "/l"); Symlink (L "loop/x") (L "/loop")].
Definition c56_state := run (init posix_cfg None 18 0 0 0) c56_ops.
Lemma c56_reachable : reachable posix_cfg c56_state.
Proof. exists None, 18%N, 0%Z, 0%Z, 0%Z, c56_ops. reflexivity. Qed.
Lemma c56_HD : honest_dirs c56_state.
Proof. intros o. do 9 (destruct o as [|o]; [vm_compute; reflexivity|]). vm_compute. reflexivity. Qed.
Lemma c56_HL : honest_links c56_state.
Proof.
  intros d n o _. do 9 (destruct o as [|o]; [vm_compute; first [intros K; discriminate K|intros _; eexists; reflexivity]|]).
  vm_compute. intros K; discriminate K.
Qed.
Lemma c56_HN : null_free c56_state.
Proof.
  apply null_free_intro; [apply (reachable_Ginv posix_cfg _ posix_cfg_linux c56_reachable)|vm_compute; reflexivity| |vm_compute; reflexivity].
  vm_compute. intuition discriminate.
Qed.
Lemma c56_HO : open_dirs c56_state.
Proof.
  intros o. do 9 (destruct o as [|o]; [vm_compute; first [intros K; discriminate K|intros _; reflexivity]|]).
  vm_compute. intros K; discriminate K.
Qed.
Lemma c56_texts l t : is_link c56_state l = true -> o_body (ob c56_state l) = BFile (Some t) -> upless slash t.
Proof.
  do 9 (destruct l as [|l]; [vm_compute; first [intros K; discriminate K|intros _ [= <-]; intros K; repeat (destruct K as [K|K]; [discriminate K|]); exact K]|]).
  vm_compute. intros K; discriminate K.
Qed.
(** /l/.././l/f/y through the links l -> /a/./n, n -> b; and the loop *)
Example C56_realpath_partial_nonvacuous :
  linux_like posix_cfg /\ reachable posix_cfg c56_state /\ honest_dirs c56_state /\ honest_links c56_state /\ null_free c56_state /\ open_dirs c56_state /\
  real_path c56_state (L "/l/.././n/f") [L "a"; L "b"; L "f"] /\
  realpath_n (S (count_entries c56_state (f_next c56_state))) c56_state (L "/l/.././n/f") = Ok (L "/a/b/f") /\
  realpath_n (S (count_entries c56_state (f_next c56_state))) c56_state (L "/loop/y") = Ok (L "/loop/x/y").
Proof.
  split; [exact posix_cfg_linux|]. split; [exact c56_reachable|]. split; [exact c56_HD|]. split; [exact c56_HL|]. split; [exact c56_HN|]. split; [exact c56_HO|].
  split; [|split; vm_compute; reflexivity]. unfold real_path. apply (ev_real c56_state c56_HL 5); [|vm_compute; reflexivity].
  intros w Hw. apply (split_on_clean _ _ _ Hw).
Qed.
Example C56_same_object_partial_nonvacuous : upless slash (L "/l/f") /\ exists o, resolve c56_state (L "/l/f") true = Ok o /\ o <> devnull_oid /\
  realpath_n (S (count_entries c56_state (f_next c56_state))) c56_state (L "/l/f") = Ok (L "/a/b/f").
Proof.
  split; [vm_compute; intros K; repeat (destruct K as [K|K]; [discriminate K|]); exact K|].
  eexists. split; [vm_compute; reflexivity|]. split; [discriminate|vm_compute; reflexivity].
Qed.

(** finding 67: realpath takes ".." after a link as the parent of the directory
    the link leads to, all other calls as the parent of the link. *)
Theorem C56_dotdot_refuted : reachable posix_cfg c56_state /\
  (forall fuel, count_entries c56_state (f_next c56_state) < fuel -> realpath_n fuel c56_state (L "/l/..") = Ok (L "/a")) /\
  resolve c56_state (L "/l/..") true = Ok root_oid /\ resolve c56_state (L "/a") true <> Ok root_oid.
Proof.
  split; [exact c56_reachable|]. split.
  - intros fuel Hf. apply (realpath_mono (S (count_entries c56_state (f_next c56_state)))); [exact Hf|vm_compute; reflexivity].
  - split; [vm_compute; reflexivity|]. vm_compute. discriminate.
Qed.
Print Assumptions C56_dotdot_refuted.

(** finding 66: the links met when a relative path goes above the root have a
    new name in each round, so the loop is not noticed; realpath recurses
    without end (in Python, up to the recursion limit).  The current directory
    is "/", and "/l" is a link to "../l". *)
Definition c56_up := run (init posix_cfg None 18 0 0 0) [Symlink (L "../l") (L "/l")].
Lemma c56_up_reachable : reachable posix_cfg c56_up.
Proof. exists None, 18%N, 0%Z, 0%Z, 0%Z, [Symlink (L "../l") (L "/l")]. reflexivity. Qed.
Definition ups (j : nat) : str := join_with [slash] (repeat dotdot j).
Definition up_link (j : nat) : str := match j with O => L "l" | S _ => ups j ++ L "/l" end.
Lemma ups_S j : ups (S (S j)) = L "../" ++ ups (S j).
Proof. reflexivity. Qed.
Lemma ups_snoc j : ups (S (S j)) = ups (S j) ++ L "/..".
Proof. induction j as [|j IH]; [reflexivity|]. rewrite ups_S, IH at 1. rewrite ups_S, <- app_assoc. reflexivity. Qed.
Lemma up_link_length j : length (up_link j) = 3 * j + 1.
Proof.
  destruct j as [|j]; [reflexivity|]. cbn [up_link]. rewrite app_length. induction j as [|j IH]; [reflexivity|]. rewrite ups_S, app_length. cbn in *. lia.
Qed.
Lemma ups_ends j : ends_with_char slash (ups (S j)) = false.
Proof.
  destruct j as [|j]; [reflexivity|]. rewrite ups_snoc. apply not_true_is_false. intros K. apply ends_with_char_spec in K. destruct K as [u K].
  change (L "/..") with ([slash; dotc] ++ [dotc]) in K. rewrite app_assoc in K. apply app_inj_tail in K. destruct K as [_ K]. discriminate.
Qed.
Lemma ups_parts j : split_on slash (ups (S j)) = repeat dotdot (S j).
Proof. unfold ups. apply split_join; [discriminate|]. intros w Hw. apply repeat_spec in Hw. subst w. cbn. intuition discriminate. Qed.
Lemma ups_walk j : walk_pos slash [] (ups j) = [].
Proof.
  destruct j as [|j]; [reflexivity|]. unfold walk_pos. replace (is_abs slash (ups (S j))) with false by (destruct j; reflexivity).
  rewrite ups_parts, den_repeat_up. destruct j; reflexivity.
Qed.
Section Up.
Variable s : fs.
Hypothesis HG : Ginv s.
Hypothesis Hsp : sepc s = slash.
Hypothesis Hcwd : f_cwd s = [slash].
Hypothesis Hroot : exists_top s [slash] = Ok true.
Lemma ups_anp j : anp s (ups (S j)) = [slash].
Proof.
  pose proof (Ginv_good s HG) as Hg. destruct (anp_names s (ups (S j)) Hg) as (names & Hn & E). pose proof (anp_names_of s (ups (S j)) names Hg ltac:(destruct j; discriminate) Hn E) as K.
  unfold names_of in K. rewrite Hcwd, Hsp in K. change (walk_pos slash [] [slash]) with (@nil str) in K. rewrite ups_walk in K. destruct names as [|x l]; [rewrite E, Hsp; reflexivity|].
  exfalso. cbn [rev] in K. destruct (rev l); discriminate.
Qed.
Lemma ups_valid j : forall fuel, j <= fuel -> valid_rel (exists_top s) fuel s (ups (S j)) = Ok true.
Proof.
  induction j as [|j IH]; intros fuel Hf.
  - destruct fuel; cbn [valid_rel]; rewrite (Ginv_win s HG), Hsp; reflexivity.
  - destruct fuel as [|fuel]; [lia|]. cbn [valid_rel]. rewrite (Ginv_win s HG), Hsp.
    assert (E : rfind_pre [slash; dotc; dotc] (ups (S (S j))) = Some (ups (S j))).
    { rewrite ups_snoc. change (L "/..") with (slash :: dotdot). rewrite rfind_join by discriminate. reflexivity. }
    rewrite E, ups_anp, Hroot. cbn [rbind]. apply IH. lia.
Qed.
Lemma ups_resolve j : is_dirobj s root_oid = true -> resolve s (ups (S j)) true = Ok root_oid.
Proof.
  intros Hd. pose proof (Ginv_good s HG) as Hg. unfold resolve. apply (resolve_ok s Hg). exists []. split; [|split; [constructor|]].
  - apply (resolve_path_ok s Hg). split; [destruct j; discriminate|]. split.
    + apply ups_valid. pose proof (up_link_length (S j)) as K. cbn [up_link] in K. rewrite app_length in K. change (length (L "/l")) with 2 in K. lia.
    + exists [], []. split; [constructor|]. split; [rewrite ups_anp, Hsp; reflexivity|]. split; [|reflexivity]. right. split; [intros [K _]; apply K; reflexivity|].
      exists 0. split; [lia|]. constructor. intros pre n l rest (K & _). destruct pre; discriminate.
  - right. split; [intros [K _]; apply K; reflexivity|]. split; [reflexivity|]. split; [intros pre n rest o K; destruct pre; discriminate|].
    right. right. intros pre rest o K Hne _. exfalso. destruct pre; [apply Hne; reflexivity|discriminate].
Qed.
Variable l : oid.
Hypothesis Hd : is_dirobj s root_oid = true.
Hypothesis Hrd : has_bit (o_mode (ob s root_oid)) PERM_READ = true.
Hypothesis Hl : entry s root_oid (L "l") = Some l.
Hypothesis Hlink : is_link s l = true.
Hypothesis Htext : o_body (ob s l) = BFile (Some (L "../l")).
Lemma l_ord : ordinary (sepc s) (L "l").
Proof. rewrite Hsp. repeat split; try discriminate. cbn. intuition discriminate. Qed.
Lemma up_join j : joinp s (ups (S j)) (L "l") = up_link (S j).
Proof.
  rewrite (joinp_eq s HG _ _ l_ord), Hsp. cbn [up_link]. rewrite ups_ends. destruct j; reflexivity.
Qed.
Lemma up_islink j : islink s (up_link (S j)) = Ok true.
Proof.
  rewrite <- up_join, (islink_child s HG (ups (S j)) (L "l") root_oid ltac:(destruct j; discriminate) l_ord (ups_resolve j Hd) Hd Hrd), Hl, Hlink. reflexivity.
Qed.
Lemma up_readlink j : readlink s (up_link (S j)) = Ok (L "../l").
Proof.
  unfold readlink. rewrite <- up_join. assert (Hne : ups (S j) <> []) by (destruct j; discriminate).
  rewrite (lresolve_child s HG (ups (S j)) (L "l") Hne l_ord), (ups_resolve j Hd). cbn [rbind]. rewrite Hd, Hrd, Hl. cbn [negb rbind].
  unfold is_link, S_ISLNK in Hlink. rewrite Hlink. cbn [negb]. rewrite (joinp_sep_end s HG _ _ Hne l_ord). unfold text_contents. rewrite Htext. reflexivity.
Qed.
Lemma ups_split j : splitpath (f_cfg s) (ups (S j)) = (ups j, dotdot).
Proof.
  pose proof (linux_like_posix _ (gi_lin _ HG)) as Hp. unfold splitpath. rewrite (normcase_id _ Hp), (no_drive_letter _ Hp). change (sep (f_cfg s)) with (sepc s). rewrite Hsp.
  rewrite ups_parts. change (repeat dotdot (S j)) with (dotdot :: repeat dotdot j). rewrite repeat_cons, removelast_last, last_last.
  destruct j as [|j]; [reflexivity|].
  assert (Es : strip_trailing_empty (repeat dotdot (S j)) = repeat dotdot (S j)).
  { assert (G : repeat dotdot (S j) = repeat dotdot j ++ [dotdot]) by (cbn [repeat]; apply repeat_cons).
    unfold strip_trailing_empty. rewrite G at 1. rewrite rev_app_distr. change (rev [dotdot] ++ rev (repeat dotdot j)) with (dotdot :: rev (repeat dotdot j)).
    change (drop_empty (dotdot :: rev (repeat dotdot j))) with (rev [dotdot] ++ rev (repeat dotdot j)). rewrite <- rev_app_distr, rev_involutive, G. reflexivity. }
  cbn [repeat]. cbv iota. change (dotdot :: repeat dotdot j) with (repeat dotdot (S j)). rewrite Es. cbn [repeat existsb]. change (negb (str_eqb dotdot [])) with true. cbn [orb]. destruct j; reflexivity.
Qed.
Lemma up_join2 j : join2 (f_cfg s) (ups j) dotdot = ups (S j).
Proof.
  unfold join2. rewrite (joinpaths_two _ (linux_like_posix _ (gi_lin _ HG)) (linux_like_abs _ (gi_lin _ HG))). fold (sepc s). rewrite Hsp.
  change (is_abs slash dotdot) with false. cbv iota. destruct j as [|j]; [reflexivity|]. rewrite ups_ends, ups_snoc. destruct j; reflexivity.
Qed.
Lemma ups_endless fuel : forall j seen, (forall i, j < i -> assoc (up_link i) seen = None) -> joinrealpath fuel s (ups j) (L "../l") seen = Err RecErr.
Proof.
  induction fuel as [|fuel IH]; intros j seen Hs; [reflexivity|]. cbn [joinrealpath].
  pose proof (linux_like_posix _ (gi_lin _ HG)) as Hp. rewrite (path_isabs_posix _ _ Hp). fold (sepc s). rewrite Hsp.
  change (is_abs slash (L "../l")) with false. cbv iota. change (split_on slash (L "../l")) with [dotdot; L "l"]. cbn [real_loop].
  change (str_eqb dotdot [] || str_eqb dotdot dot) with false. change (str_eqb dotdot dotdot) with true. cbv iota.
  assert (Q : real_loop (joinrealpath fuel s) s (ups (S j)) [L "l"] seen = Err RecErr).
  { cbn [real_loop]. change (str_eqb (L "l") [] || str_eqb (L "l") dot) with false. change (str_eqb (L "l") dotdot) with false. cbv iota.
    change (join2 (f_cfg s) (ups (S j)) (L "l")) with (joinp s (ups (S j)) (L "l")). rewrite up_join, up_islink. cbn [rbind negb]. rewrite (Hs (S j)) by lia.
    rewrite up_readlink. cbn [rbind]. rewrite IH; [reflexivity|]. intros i Hi. rewrite assoc_set_other; [apply Hs; lia|].
    intros K. apply (f_equal (@length _)) in K. rewrite !up_link_length in K. lia. }
  destruct j as [|j].
  - exact Q.
  - replace (nonempty (ups (S j))) with true by (destruct j; reflexivity).
    assert (E : splitpath (f_cfg s) (ups (S j)) = (ups j, dotdot)) by (apply ups_split; assumption).
    rewrite E. change (str_eqb dotdot dotdot) with true. cbv iota.
    assert (J : join2 (f_cfg s) (join2 (f_cfg s) (ups j) dotdot) dotdot = ups (S (S j))).
    { rewrite !up_join2. reflexivity. }
    rewrite J. exact Q.
Qed.
End Up.
Theorem C56_endless_refuted : reachable posix_cfg c56_up /\ f_cwd c56_up = L "/" /\ islink c56_up (L "/l") = Ok true /\
  forall fuel, realpath_n fuel c56_up (L "l") = Err RecErr.
Proof.
  split; [exact c56_up_reachable|]. split; [vm_compute; reflexivity|]. split; [vm_compute; reflexivity|]. intros fuel.
  assert (HG := reachable_Ginv posix_cfg _ posix_cfg_linux c56_up_reachable).
  assert (E : forall n seen, (forall i, 0 < i -> assoc (up_link i) seen = None) -> joinrealpath n c56_up (ups 0) (L "../l") seen = Err RecErr).
  { intros n seen. apply (ups_endless c56_up HG) with (l := 2); vm_compute; reflexivity. }
  unfold realpath_n. change (c_win (f_cfg c56_up)) with false. cbv iota.
  assert (Q : joinrealpath fuel c56_up [] (L "l") [] = Err RecErr); [|rewrite Q; reflexivity].
  destruct fuel as [|n]; [reflexivity|]. cbn [joinrealpath]. 
  assert (E1 : path_isabs (f_cfg c56_up) (L "l") = false) by (vm_compute; reflexivity). rewrite E1.
  assert (E2 : split_on (c_sep (f_cfg c56_up)) (L "l") = [L "l"]) by (vm_compute; reflexivity). rewrite E2.
  cbn [real_loop]. change (str_eqb (L "l") [] || str_eqb (L "l") dot) with false. change (str_eqb (L "l") dotdot) with false. cbv iota.
  assert (E3 : join2 (f_cfg c56_up) [] (L "l") = L "l") by (vm_compute; reflexivity). rewrite E3.
  assert (E4 : islink c56_up (L "l") = Ok true) by (vm_compute; reflexivity). rewrite E4. cbn [rbind negb assoc].
  assert (E5 : readlink c56_up (L "l") = Ok (L "../l")) by (vm_compute; reflexivity). rewrite E5. cbn [rbind].
  change (joinrealpath n c56_up []) with (joinrealpath n c56_up (ups 0)). rewrite E; [reflexivity|].
  intros i Hi. change (set_assoc (L "l") None []) with (set_assoc (up_link 0) (@None str) []). rewrite assoc_set_other; [reflexivity|].
  intros K. apply (f_equal (@length _)) in K. rewrite !up_link_length in K. lia.
Qed.
Print Assumptions C56_endless_refuted.

(** ** C57 *)

Lemma rstrip_abs sp names : Forall (ordinary sp) names -> rstrip sp (abs_path sp names) = match names with [] => [] | _ => abs_path sp names end.
Proof.
  intros H. unfold rstrip. destruct names as [|w l].
  - cbn. rewrite Ascii.eqb_refl. reflexivity.
  - destruct (ends_sep_join sp (w :: l)) as [E1 E2]; [discriminate| |].
    { intros v Hv. rewrite Forall_forall in H. destruct (H v Hv) as (A & _ & _ & B). auto. }
    unfold abs_path. destruct (exists_last (l := sp :: join_with [sp] (w :: l))) as (q & x & E); [discriminate|]. rewrite E, rev_app_distr. cbn [rev app lstrip].
    destruct (Ascii.eqb x sp) eqn:Ex; [|rewrite <- E; cbn [rev]; rewrite <- (rev_involutive (sp :: join_with [sp] (w :: l))), E, rev_app_distr; reflexivity].
    exfalso. apply Ascii.eqb_eq in Ex. subst x. destruct (join_with [sp] (w :: l)) as [|y z] eqn:Ej; [discriminate|].
    destruct q as [|a q]; [discriminate|]. injection E as _ E. assert (K : ends_with_char sp (y :: z) = true) by (apply ends_with_char_spec; exists q; exact E). congruence.
Qed.
(** ismount(p) is true exactly for the paths of mount points, however they are written. *)
Theorem C57_ismount : forall c s, linux_like c -> reachable c s -> forall p,
  ismount s p = true <-> p <> [] /\ exists names m, names_of s p names /\ mounted s names m.
Proof.
  intros c s Hc Hr p. destruct (reachable_GP c s Hc Hr) as [HG _]. pose proof (Ginv_good s HG) as Hg. pose proof (keys_reachable c s Hc Hr) as Hk.
  unfold ismount. destruct p as [|x p]; [split; [discriminate|intros [K _]; congruence]|]. cbn [nonempty negb]. rewrite (Ginv_win s HG). change (c_sep (f_cfg s)) with (sepc s).
  destruct (anp_names s (x :: p) Hg) as (names & Hn & E). assert (Hno := anp_names_of s (x :: p) names Hg ltac:(discriminate) Hn E).
  assert (Hd : forall k m, In (k, m) (f_mounts s) -> (str_eqb (rstrip (sepc s) (anp s (x :: p))) (rstrip (sepc s) k) = true <-> k = abs_path (sepc s) names)).
  { intros k m Hin. destruct (ky_names s Hk k m Hin) as (mn & Hmo & ->). rewrite E, str_eqb_eq, !rstrip_abs by assumption. split.
    - intros K. f_equal. destruct mn as [|a mn], names as [|b names]; try discriminate; [reflexivity|]. apply (abs_path_inj _ (linux_like_posix _ (gi_lin _ HG)) _ _ Hmo Hn). symmetry. exact K.
    - intros K. apply (abs_path_inj _ (linux_like_posix _ (gi_lin _ HG)) _ _ Hmo Hn) in K. subst mn. reflexivity. }
  rewrite existsb_exists. split.
  - intros ([k m] & Hin & K). cbn [fst] in K. apply (Hd k m Hin) in K. subst k. split; [discriminate|]. exists names, m. split; [exact Hno|]. split; assumption.
  - intros (_ & names' & m & Hno' & _ & Hin). unfold names_of in *. rewrite Hno in Hno'. apply (f_equal (@rev _)) in Hno'. rewrite !rev_involutive in Hno'. subst names'.
    exists (abs_path (sepc s) names, m). split; [exact Hin|]. apply (Hd _ m Hin). reflexivity.
Qed.
Print Assumptions C57_ismount.
Example C57_ismount_nonvacuous : reachable posix_cfg c50_state /\ ismount c50_state (L "/foo/../foo//in/.") = true /\ ismount c50_state (L "/foobar") = false /\
  ismount c50_state (L "/") = true.
Proof. split; [exact c50_reachable|]. split; [vm_compute; reflexivity|]. split; vm_compute; reflexivity. Qed.

(** ** C58 *)

Lemma fold_add (A : Type) (f : A -> Z) l : forall a, fold_left (fun acc e => (acc + f e)%Z) l a = (a + fold_right Z.add 0%Z (map f l))%Z.
Proof. induction l as [|x l IH]; intros a; cbn [fold_left map fold_right]; [lia|]. rewrite IH. lia. Qed.
(** the sum of the sizes of the files with the names [bs] below [d] *)
Definition sizes (s : fs) (d : oid) (bs : list (list str)) : Z :=
  fold_right Z.add 0%Z (map (fun b => match tree_at s d b with Some x => o_size (ob s x) | None => 0%Z end) bs).
Definition files_below (s : fs) (d : oid) (bs : list (list str)) : Prop :=
  NoDup bs /\ forall b, In b bs <-> exists x, tree_at s d b = Some x /\ is_dirobj s x = false.
Lemma fold_app l l' : fold_right Z.add 0%Z (l ++ l') = (fold_right Z.add 0 l + fold_right Z.add 0 l')%Z.
Proof. induction l as [|x l IH]; cbn [app fold_right]; [lia|]. rewrite IH. lia. Qed.
Lemma NoDup_app_intro {A} (a b : list A) : NoDup a -> NoDup b -> (forall x, In x a -> ~ In x b) -> NoDup (a ++ b).
Proof.
  intros Ha Hb. induction Ha as [|x a Hx _ IH]; intros H; [exact Hb|]. cbn [app]. constructor; [|apply IH; intros y Hy; apply H; right; exact Hy].
  rewrite in_app_iff. intros [K|K]; [contradiction|]. apply (H x (or_introl eq_refl) K).
Qed.
Lemma size_below s : Ginv s -> forall k o, depth_le s o k -> exists bs, files_below s o bs /\ obj_size (S k) s o = sizes s o bs.
Proof.
  intros HG. induction k as [k IH] using lt_wf_ind. intros o Hd.
  destruct (o_body (ob s o)) as [es|d] eqn:Eb.
  - assert (Hes : ents s o = es) by (unfold ents; rewrite Eb; reflexivity).
    assert (Hch : forall n x, In (n, x) es -> entry s o n = Some x /\ exists k', k = S k' /\ depth_le s x k').
    { intros n x Hin. rewrite <- Hes in Hin. pose proof (In_entry s o n x HG Hin) as E. split; [exact E|].
      destruct k as [|k']; [|exists k'; split; [reflexivity|apply (depth_child s o n x k' E Hd)]].
      exfalso. assert (K : tree_at s o [n] = Some x) by (cbn [tree_at]; rewrite E; reflexivity). apply Hd in K. cbn in K. lia. }
    assert (Hnd : NoDup (map fst es)) by (rewrite <- Hes; apply (gi_nodup s HG)).
    assert (G : forall l, incl l es -> NoDup (map fst l) -> exists bs, NoDup bs /\
      (forall b, In b bs <-> exists n x r y, b = n :: r /\ In (n, x) l /\ tree_at s x r = Some y /\ is_dirobj s y = false) /\
      fold_right Z.add 0%Z (map (fun e => obj_size k s (snd e)) l) = sizes s o bs).
    { induction l as [|[n x] l IHl]; intros Hi Hl.
      - exists []. split; [constructor|]. split; [|reflexivity]. intros b. split; [intros []|]. intros (n & x & r & y & _ & [] & _).
      - cbn [map fst] in Hl. inversion Hl as [|? ? Hn Hl']; subst. destruct (IHl ltac:(intros z Hz; apply Hi; right; exact Hz) Hl') as (bs & B1 & B2 & B3).
        destruct (Hch n x (Hi _ (or_introl eq_refl))) as (En & k' & -> & Hdx). destruct (IH k' ltac:(lia) x Hdx) as (bx & (X1 & X2) & X3).
        exists (map (cons n) bx ++ bs). split; [|split].
        + apply NoDup_app_intro.
          * apply FinFun.Injective_map_NoDup; [intros a b K; injection K as ->; reflexivity|exact X1].
          * exact B1.
          * intros b Hb Hb'. apply in_map_iff in Hb. destruct Hb as (r & <- & _). apply B2 in Hb'. destruct Hb' as (n' & x' & r' & y' & K & Hin & _). injection K as <- <-. apply Hn. apply (in_map fst) in Hin. exact Hin.
        + intros b. rewrite in_app_iff, in_map_iff, B2. split.
          * intros [(r & <- & Hr)|(n' & x' & r & y & -> & A & B)]; [|exists n', x', r, y; split; [reflexivity|]; split; [right; exact A|exact B]].
            apply X2 in Hr. destruct Hr as (y & A & B). exists n, x, r, y. split; [reflexivity|]. split; [left; reflexivity|]. split; assumption.
          * intros (n' & x' & r & y & -> & [K|A] & B); [|right; exists n', x', r, y; auto]. injection K as <- <-. left. exists r. split; [reflexivity|]. apply X2. exists y. exact B.
        + cbn [map fold_right snd]. rewrite B3, X3. unfold sizes. rewrite map_app, fold_app, map_map. f_equal. f_equal. apply map_ext. intros r. cbn [tree_at]. rewrite En. reflexivity. }
    destruct (G es (incl_refl es) Hnd) as (bs & B1 & B2 & B3). exists bs. split.
    + split; [exact B1|]. intros b. rewrite B2. split.
      * intros (n & x & r & y & -> & Hin & E & F). exists y. split; [|exact F]. cbn [tree_at]. destruct (Hch n x Hin) as [-> _]. exact E.
      * intros (y & E & F). destruct b as [|n r]; [cbn in E; injection E as <-; unfold is_dirobj in F; rewrite Eb in F; discriminate|].
        cbn [tree_at] in E. destruct (entry s o n) as [x|] eqn:En; [|discriminate]. exists n, x, r, y. split; [reflexivity|]. split; [rewrite <- Hes; apply entry_In, En|]. split; assumption.
    + rewrite <- B3. cbn [obj_size]. rewrite Eb. rewrite fold_add. reflexivity.
  - assert (Hf : is_dirobj s o = false) by (unfold is_dirobj; rewrite Eb; reflexivity). exists [[]]. split.
    + split; [constructor; [intros []|constructor]|]. intros b. split.
      * intros [<-|[]]. exists o. split; [reflexivity|exact Hf].
      * intros (x & E & F). destruct b as [|n b]; [left; reflexivity|]. cbn [tree_at] in E. unfold entry, ents in E. rewrite Eb in E. discriminate.
    + cbn [obj_size]. rewrite Eb. unfold st_size. rewrite (Ginv_win s HG). unfold sizes. cbn. lia.
Qed.
(** [fs.get_object(p).size]: for a file its size, for a directory the sum of the
    sizes of all files (and links) below it, a file with several names counted
    for each. *)
Theorem C58_directory_size : forall c s, linux_like c -> reachable c s -> forall p o, get_object s p true = Ok o ->
  exists bs, files_below s o bs /\ object_size s p = Ok (sizes s o bs).
Proof.
  intros c s Hc Hr p o E. destruct (reachable_GP c s Hc Hr) as [HG _]. unfold object_size. rewrite E. cbn [rbind].
  destruct (size_below s HG (f_next s) o (depth_bound s o HG)) as (bs & H1 & H2). exists bs. split; [exact H1|]. rewrite H2. reflexivity.
Qed.
Print Assumptions C58_directory_size.
(** /a has b/f (5 bytes) and the link n (1 byte) *)
Example C58_directory_size_nonvacuous : reachable posix_cfg c56_state /\
  (exists o, get_object c56_state (L "/a") true = Ok o /\ is_dirobj c56_state o = true /\
     sizes c56_state o [[L "b"; L "f"]; [L "n"]] = 6%Z) /\
  object_size c56_state (L "/a") = Ok 6%Z.
Proof. split; [exact c56_reachable|]. split; [|vm_compute; reflexivity]. eexists. split; [vm_compute; reflexivity|]. split; vm_compute; reflexivity. Qed.
