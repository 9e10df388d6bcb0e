(** * C46, C47: os.walk and os.scandir.

    Vocabulary: FsSpec.v and WalkSpec.v. *)
From Verif Require Export WalkThm PropTree PropOps.
From Coq Require Import List Bool ZArith Lia Ascii.
Import ListNotations.

(** ** C46 *)

(** What is a directory among the names of a directory below the top: for names
    that are no links, the directory objects and nothing else. *)
Lemma isdirb_below s : Ginv s -> honest_links s -> honest_dirs s -> null_free s -> forall b p names rr d x n o,
  arrives s p names rr d -> readable_below s d -> no_null_below s names d ->
  tree_at s d b = Some x -> entry s x n = Some o -> is_link s o = false ->
  isdirb s (path_in s p (b ++ [n])) = is_dirobj s o.
Proof.
  intros HG HL HD HN b. induction b as [|m b IH]; intros p names rr d x n o HA HR HNN Hx He Hl.
  - injection Hx as ->. apply (isdirb_entry s HG HD HN p names rr x n o HA HR HNN He Hl).
  - cbn [tree_at] in Hx. destruct (entry s d m) as [y|] eqn:Ey; [|discriminate]. cbn [app]. rewrite (path_in_cons s HG).
    assert (Hm := entry_ordinary s HG d m y Ey).
    assert (Hdy : is_dirobj s y = true).
    { destruct b as [|z b]; [injection Hx as ->; apply (entry_dirobj s x n o He)|apply (tree_at_dirobj s y z b x Hx)]. }
    assert (Ht : tree_at s d [m] = Some y) by (cbn; rewrite Ey; reflexivity).
    apply (IH (joinp s p m) (names ++ [m]) (rr ++ [m]) y x n o); try assumption.
    + apply (arrives_child s HG p names rr d m y HA Hm Ey Hdy); [apply (HNN [m] y Ht)| |rewrite HD; apply (ar_dir _ _ _ _ _ HA)|right; apply (HR [m] y Ht Hdy)].
      intros K. pose proof (HN _ K) as K'. rewrite (at_names_snoc s rr m d (ar_at _ _ _ _ _ HA)) in K'. congruence.
    + intros c z Hz. apply (HR (m :: c) z). cbn. rewrite Ey. exact Hz.
    + intros c z Hz. rewrite <- app_assoc. apply (HNN (m :: c) z). cbn. rewrite Ey. exact Hz.
Qed.

(** os.walk(p) without following links, [p] any path that leads to a directory
    [d] (through links or not), whose tree is readable: the tuples are those of
    the directories below [d], [bs], each once; every tuple has the names of
    its directory, divided into directories and others; top-down a directory
    comes before those in it, bottom-up after.  Top-down, the caller may drop
    names from the list of directories ([keep]): exactly the directories below
    dropped ones are left out. *)
Theorem C46_every_directory_once_partial : forall c s, linux_like c -> reachable c s ->
  honest_dirs s -> honest_links s -> null_free s ->
  forall p names d, resolve s p true = Ok d -> is_dirobj s d = true -> names_of s p names ->
  readable_below s d -> no_null_below s names d ->
  forall (topdown : bool) (keep : str -> str -> bool), exists bs,
    walk s p topdown false (fun root dirs _ => filter (keep root) dirs) = Ok (map (yields s p d) bs) /\
    NoDup bs /\
    (forall b, In b bs <-> sub_dir s d b /\ (topdown = true -> kept_path s keep p b)) /\
    (forall i j a n r, nth_error bs i = Some a -> nth_error bs j = Some (a ++ n :: r) ->
       if topdown then i < j else j < i) /\
    (forall b x n o, tree_at s d b = Some x -> entry s x n = Some o -> is_link s o = false ->
       isdirb s (path_in s p (b ++ [n])) = is_dirobj s o).
Proof.
  intros c s Hc Hr HD HL HN p names d Hres Hd Hnames HR HNN td keep.
  pose proof (reachable_Ginv c s Hc Hr) as HG.
  destruct (arrives_intro s HG p d Hres Hd) as (names' & rr & HA).
  pose proof (names_of_det s p _ _ (ar_names _ _ _ _ _ HA) Hnames) as ->.
  destruct (walk_ok s HG HL HD HN td keep (walk_fuel s) p names rr d true HA HR HNN) as (bs & E & Hb & Nb & Ob).
  { intros b x Hx _. pose proof (depth_bound s d HG b x Hx). unfold walk_fuel. lia. }
  { left. reflexivity. }
  exists bs. split; [exact E|]. split; [exact Nb|]. split; [exact Hb|]. split.
  - intros i j a n r Hi Hj.
    assert (Hne : a <> a ++ n :: r) by (intros K; apply (f_equal (@length _)) in K; rewrite app_length in K; cbn in K; lia).
    assert (Hpp : proper_prefix a (a ++ n :: r)) by (exists n, r; reflexivity).
    destruct (Nat.lt_trichotomy i j) as [L|[->|L]].
    + destruct td; [exact L|]. exfalso. apply (fop_nth _ _ Ob i j _ _ L Hi Hj). exact Hpp.
    + congruence.
    + destruct td; [|exact L]. exfalso. apply (fop_nth _ _ Ob j i _ _ L Hj Hi). exact Hpp.
  - intros b x n o Hx He Hl. apply (isdirb_below s HG HL HD HN b p names rr d x n o HA HR HNN Hx He Hl).
Qed.
Print Assumptions C46_every_directory_once_partial.

(** Every walk ends: from any top, in both orders, also when links are followed
    (in circles), as long as the caller does not add names.  The only exception
    is AttributeError (a link without text, see C09); OSErrors go to the
    onerror function. *)
Theorem C46_walks_end : forall c s, linux_like c -> reachable c s -> honest_dirs s ->
  forall top topdown follow edit, (forall root ds fs, incl (edit root ds fs) ds) ->
  (exists evs, walk s top topdown follow edit = Ok evs) \/ walk s top topdown follow edit = Err AttrErr.
Proof.
  intros c s Hc Hr HD top td fl edit He. apply (walk_total s top td fl edit (reachable_Ginv c s Hc Hr) HD He).
Qed.
Print Assumptions C46_walks_end.

Lemma tree_honest_links : honest_links tree_state.
Proof.
  intros d n o _. do 6 (destruct o as [|o]; [vm_compute; first [intros K; discriminate K|intros _; eexists; reflexivity]|]).
  vm_compute. intros K; discriminate K.
Qed.

(** the case: /d with f, l (a dangling link) and e, and /g, walked from "." *)
Example C46_case :
  resolve tree_state (L ".") true = Ok root_oid /\ is_dirobj tree_state root_oid = true /\ names_of tree_state (L ".") [] /\
  readable_below tree_state root_oid /\ no_null_below tree_state [] root_oid /\
  walk tree_state (L ".") true false (fun _ ds _ => filter (fun _ => true) ds) =
    Ok [WYield (L ".") [L "d"] [L "g"]; WYield (L "./d") [L "e"] [L "f"; L "l"]; WYield (L "./d/e") [] []] /\
  walk tree_state (L ".") false false (fun _ ds _ => ds) =
    Ok [WYield (L "./d/e") [] []; WYield (L "./d") [L "e"] [L "f"; L "l"]; WYield (L ".") [L "d"] [L "g"]] /\
  walk tree_state (L ".") true false (fun r ds _ => filter (fun n => negb (str_eqb n (L "e"))) ds) =
    Ok [WYield (L ".") [L "d"] [L "g"]; WYield (L "./d") [L "e"] [L "f"; L "l"]].
Proof.
  assert (Hx : forall b x, at_names tree_state b = Some x -> x < 6).
  { intros b x Hb. pose proof (at_names_lt tree_state b x (reachable_Ginv posix_cfg _ posix_cfg_linux tree_reachable) Hb) as K.
    assert (E : f_next tree_state = 6) by (vm_compute; reflexivity). rewrite E in K. exact K. }
  split; [vm_compute; reflexivity|]. split; [vm_compute; reflexivity|]. split; [vm_compute; reflexivity|].
  split; [|split; [|split; [|split]]]; try (vm_compute; reflexivity).
  - intros b x Hb _. specialize (Hx b x Hb). clear Hb. do 6 (destruct x as [|x]; [vm_compute; reflexivity|]). exfalso. clear -Hx. lia.
  - intros b x Hb K. cbn [app] in K. pose proof (tree_null_free b K) as E. unfold at_names in E. congruence.
Qed.

(** What is missing: unreadable directories.  islink() looks at the read bit of
    the directory even for root, so that in a directory without it a link to a
    directory is followed although followlinks is False ... *)
Definition c46_ops := [Mkdir (L "/d") 0; Mkdir (L "/e") 511; Symlink (L "/e") (L "/d/l")].
Definition c46_state := run (init posix_cfg None 18 0 0 0) c46_ops.
Theorem C46_link_followed_refuted : reachable posix_cfg c46_state /\ is_root c46_state = true /\
  walk c46_state (L "/") true false (fun _ ds _ => ds) =
    Ok [WYield (L "/") [L "d"; L "e"] []; WYield (L "/d") [L "l"] []; WYield (L "/d/l") [] []; WYield (L "/e") [] []] /\
  readlink (mod_ob c46_state 2 (fun x => wo_mode x (N.lor S_IFDIR 511))) (L "/d/l") = Ok (L "/e").
Proof.
  split; [exists None, 18%N, 0%Z, 0%Z, 0%Z, c46_ops; reflexivity|].
  split; [vm_compute; reflexivity|]. split; vm_compute; reflexivity.
Qed.
(** ... and for other users a directory without the read bit is not a directory
    at all: it is yielded with the files. *)
Definition c46_ops2 := c46_ops ++ [SetUid 1].
Definition c46_state2 := run (init posix_cfg None 18 0 0 0) c46_ops2.
Theorem C46_directory_among_files_refuted : reachable posix_cfg c46_state2 /\
  walk c46_state2 (L "/") true false (fun _ ds _ => ds) = Ok [WYield (L "/") [L "e"] [L "d"]; WYield (L "/e") [] []] /\
  at_names c46_state2 [L "d"] = Some 2 /\ is_dirobj c46_state2 2 = true.
Proof.
  split; [exists None, 18%N, 0%Z, 0%Z, 0%Z, c46_ops2; reflexivity|].
  split; [vm_compute; reflexivity|]. split; vm_compute; reflexivity.
Qed.

(** ** C47 *)

(** os.scandir(p) has one entry per name of os.listdir(p), in the same order;
    its path is os.path.join(p, name), and is_dir, is_symlink are what
    os.path.isdir, os.path.islink say about it; without following links
    is_dir means a directory that is no link.  is_file is true when
    os.path.isfile is, and false when os.path.isdir is true; if the entry leads
    to an object at all, it is true exactly when that is no directory.  For
    root, stat and inode are those of os.stat and os.lstat. *)
Theorem C47_scandir_is_listdir_partial : forall c s, linux_like c -> reachable c s ->
  honest_dirs s -> honest_links s ->
  forall p d, resolve s p true = Ok d -> is_dirobj s d = true ->
  exists es, scandir s (PStr p) = Ok es /\ listdir s (PStr p) = Ok (map de_name es) /\
    forall e, In e es ->
      let q := de_path e in
      q = path_in s p [de_name e] /\
      isdir s q true = Ok (de_is_dir e true) /\ islink s q = Ok (de_is_symlink e) /\
      de_is_dir e false = (de_is_dir e true && negb (de_is_symlink e)) /\
      de_is_file e false = (de_is_file e true && negb (de_is_symlink e)) /\
      (isfile s q true = Ok true -> de_is_file e true = true) /\
      (isdir s q true = Ok true -> de_is_file e true = false) /\
      (forall o, resolve s q true = Ok o -> de_is_file e true = negb (is_dirobj s o)) /\
      (is_root s = true -> forall follow, de_stat s e follow = stat s (PStr q) follow) /\
      (is_root s = true -> de_inode s e = let* st := stat s (PStr q) false in Ok (ss_ino st)).
Proof.
  intros c s Hc Hr HD HL p d Hres Hd. pose proof (reachable_Ginv c s Hc Hr) as HG.
  destruct (arrives_intro s HG p d Hres Hd) as (names & rr & HA).
  exists (map (entry_of s p (abs_path (sepc s) names)) (map fst (ents s d))).
  split; [apply (scandir_arrives s HG HL HD _ _ _ _ HA)|]. split.
  { rewrite (listdir_arrives s HG _ _ _ _ HA), map_map. f_equal. symmetry. apply map_id. }
  intros e He. apply in_map_iff in He. destruct He as (n & <- & Hn). apply names_in_ents in Hn. destruct Hn as [o Ho].
  assert (Hord := entry_ordinary s HG d n o Ho).
  destruct (scan_entry_spec s HG HL HD p names rr d n HA Hord) as (E1 & E2 & E3 & E4 & E5).
  set (e := entry_of s p (abs_path (sepc s) names) n) in *. cbv zeta. rewrite E1.
  assert (Hn : de_name e = n) by reflexivity. rewrite Hn. clearbody e.
  assert (Hdir : de_is_dir e true = de_isdir e) by (unfold de_is_dir; cbn; apply andb_true_r).
  assert (Hfil : de_is_file e true = negb (de_isdir e)) by (unfold de_is_file; cbn; apply andb_true_r).
  rewrite Hdir, Hfil. unfold de_is_dir, de_is_file, de_is_symlink. cbn [orb].
  split; [reflexivity|]. split; [exact E2|]. split; [exact E3|]. split; [reflexivity|]. split; [reflexivity|].
  split; [|split; [|split; [|split]]].
  - intros K. destruct (de_isdir e) eqn:Ed; [|reflexivity]. pose proof (type_unique s _ _ _ E2 K) as Q. discriminate Q.
  - intros K. rewrite E2 in K. injection K as ->. reflexivity.
  - intros x Hx. rewrite (isdir_of_resolve s HG p n (ar_p _ _ _ _ _ HA) Hord x Hx), HD in E2. injection E2 as ->. reflexivity.
  - intros Hroot follow. unfold de_stat, stat, stat_obj, resolve_arg, resolve_follow, resolve_any.
    assert (Er : (if follow then resolve s (de_abspath e) true else lresolve s (de_abspath e)) =
                 (if follow then resolve_ (exists_top s) s (joinp s p n) false else lresolve_ (exists_top s) s (joinp s p n))).
    { destruct follow; [rewrite E4; apply (resolve_root_check s _ Hroot)|exact E5]. }
    rewrite Er. destruct (if follow then resolve_ (exists_top s) s (joinp s p n) false else lresolve_ (exists_top s) s (joinp s p n)) as [x|e']; [|reflexivity].
    cbn [rbind]. rewrite Hroot. cbn [negb rbind]. rewrite (raise_child s HG p n x follow false (ar_p _ _ _ _ _ HA) Hord). cbn [rbind].
    rewrite (Ginv_win s HG). reflexivity.
  - intros Hroot. unfold de_inode, stat, stat_obj, resolve_arg, resolve_follow, resolve_any. rewrite E5. unfold lresolve.
    destruct (lresolve_ (exists_top s) s (joinp s p n)) as [x|e']; [|reflexivity].
    cbn [rbind]. rewrite Hroot. cbn [negb rbind]. rewrite (raise_child s HG p n x false false (ar_p _ _ _ _ _ HA) Hord). reflexivity.
Qed.
Print Assumptions C47_scandir_is_listdir_partial.

Example C47_case : resolve tree_state (L "/d") true = Ok 2 /\ is_dirobj tree_state 2 = true /\
  match scandir tree_state (PStr (L "d")) with
  | Ok es => map (fun e => (de_name e, de_path e, de_is_dir e true, de_is_file e true, de_is_symlink e)) es =
      [(L "f", L "d/f", false, true, false); (L "l", L "d/l", false, true, true); (L "e", L "d/e", true, false, false)]
  | Err _ => False
  end.
Proof. split; [vm_compute; reflexivity|]. split; vm_compute; reflexivity. Qed.

(** What is missing: is_file says True for whatever is no directory, so for a
    dangling link, where os.path.isfile says False ... *)
Theorem C47_dangling_is_file_refuted :
  match scandir tree_state (PStr (L "/d")) with
  | Ok (_ :: e :: _) => de_path e = L "/d/l" /\ de_is_file e true = true /\ isfile tree_state (L "/d/l") true = Ok false /\
      exists_ tree_state (L "/d/l") false = Ok false
  | _ => False
  end.
Proof. vm_compute. repeat split. Qed.
(** ... and where listdir raises, scandir may list: the root for the empty path
    (fake_scandir.py 135 uses absnormpath, which makes it "/"), or a directory
    named through a missing one. *)
Theorem C47_empty_path_refuted :
  listdir tree_state (PStr []) = os_err ENOENT /\
  match scandir tree_state (PStr []) with Ok es => map de_name es = [L "d"; L "g"] | Err _ => False end /\
  listdir tree_state (PStr (L "/d/x/..")) = os_err ENOENT /\
  match scandir tree_state (PStr (L "/d/x/..")) with Ok es => map de_name es = [L "f"; L "l"; L "e"] | Err _ => False end.
Proof. split; [vm_compute; reflexivity|]. split; [vm_compute; reflexivity|]. split; vm_compute; reflexivity. Qed.

Print Assumptions C46_link_followed_refuted.
Print Assumptions C46_directory_among_files_refuted.
Print Assumptions C47_dangling_is_file_refuted.
Print Assumptions C47_empty_path_refuted.
