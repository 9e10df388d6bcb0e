(** * Property C77: fs.add_real_directory as it works by default (lazy_read=True).

    The model (LazyModel.v) is a filesystem together with the directories whose
    contents have not been read yet.  [look o q] is the walk from the directory
    [o] along the names [q] that every lookup makes; [list_names x] is what
    os.listdir answers for the directory [x].  A real tree is an [rtree];
    [at_tree t q] is what is at the relative path [q] in it, [real_tree]: the
    names in a directory are different and ordinary (AddRealTree.v).
    [node_is ro s x l] (LazyThm.v): the object [x] has the bytes, size, owner,
    times and mode of the real file [l] (without write and execute bits if
    [ro]), is a link with its text, or a directory with its mode, owner and
    times.  [but_entries a b]: equal but for the entries and their number. *)
From Verif Require Import SysModel FsSpec OpsThm6 ExtProofs PropFd PropOpen PropTree PropOps PropMake AddRealModel AddRealThm AddRealTree AddRealDir TreeThm.
From Verif Require Import PropAddReal PropAddReal2 LazyModel LazyThm.

(** The call changed nothing at or below [T]. *)
Definition alone (T : list str) (s s' : fs) : Prop :=
  forall q x, (at_names s' (T ++ q) = Some x <-> at_names s (T ++ q) = Some x) /\ (at_names s (T ++ q) = Some x -> ob s' x = ob s x).

(** What happens to the filesystem after the directory [o] was mapped to [T]:
    lookups in it, listings, and calls elsewhere, in any order. *)
Inductive used (T : list str) (o : oid) (w : lfs) : lfs -> Prop :=
| us_start : used T o w w
| us_look w1 w2 q r : used T o w w1 -> look o q w1 = (Ok r, w2) -> used T o w w2
| us_list w1 w2 w3 q x l : used T o w w1 -> look o q w1 = (Ok (Some x), w2) -> is_dirobj (l_fs w2) x = true ->
    list_names x w2 = (Ok l, w3) -> used T o w w3
| us_call w1 c : used T o w w1 -> alone T (l_fs w1) (snd (step c (l_fs w1))) -> within_limits (snd (step c (l_fs w1))) ->
    used T o w (mklfs (snd (step c (l_fs w1))) (l_unread w1)).

(** A directory is mapped to [T]: the call of the theorems below. *)
Record mapping (c : cfg) (s : fs) (p : str) (P : list str) (n : str) (d : oid) : Prop := {
  ma_lin : linux_like c;
  ma_reach : reachable c s;
  ma_lim : within_limits s;
  ma_sep : c_sep c = slash;
  (* the parent directory is there, and not behind a link *)
  ma_exists : exists_ s (host_dirname p) false = Ok true;
  ma_names : names_of s (host_dirname p) P;
  ma_parent : at_names s P = Some d;
  ma_free : forall pre m l rest, ~ meets_link s P pre m l rest;
  (* the last part of the path is a name *)
  ma_base : host_basename p = n;
  ma_name : ordinary slash n;
  ma_drive : forall m rest, P ++ [n] = m :: rest -> is_drive_name m = false
}.

(** The call itself adds one empty directory with the attributes of the real
    one, and nothing else. *)
Theorem C77_added : forall c s p P n d, mapping c s p P n d -> forall u st es ro o w,
  add_lazy p st es ro (mklfs s u) = (Ok o, w) ->
  one_more s (l_fs w) d n o /\ o = f_next s /\ at_names (l_fs w) (P ++ [n]) = Some o /\ dir_is (l_fs w) o st /\ ents (l_fs w) o = [] /\
  f_mounts (l_fs w) = f_mounts s /\ still_there s (l_fs w).
Proof.
  intros c s p P n d [Hl Hrc W Hs Hex Hnm Hat Hlf Hb Ho Hdr] u st es ro o w E. destruct (reachable_GP c s Hl Hrc) as [H _].
  assert (Hsp : sepc s = slash) by (rewrite (reachable_cfg c s Hrc); exact Hs).
  destruct (dir_here s u P d n p st es ro o w H W Hsp Hat Hex Hnm Hb Ho Hlf E) as (s' & -> & H' & W' & Hd & -> & OM & Nx & Di & Em & Ms). cbn [l_fs].
  destruct (one_more_any s s' d n P H OM Hat Em) as (_ & New & _).
  split; [exact OM|]. split; [reflexivity|]. split; [exact New|]. split; [exact Di|]. split; [exact Em|]. split; [exact Ms|].
  apply ext_still; [exact H|exact H'|]. apply (one_more_new_ext s s' d n H OM).
Qed.
Print Assumptions C77_added.

Lemma start_mapped c s p P n d u st es ro o w : mapping c s p P n d -> real_tree (RDir st es) ->
  add_lazy p st es ro (mklfs s u) = (Ok o, w) -> mapped (P ++ [n]) o (RDir st es) ro (l_fs w) (l_unread w) None.
Proof.
  intros [Hl Hrc W Hs Hex Hnm Hat Hlf Hb Ho Hdr] Wt E. destruct (reachable_GP c s Hl Hrc) as [H _].
  assert (Hsp : sepc s = slash) by (rewrite (reachable_cfg c s Hrc); exact Hs).
  destruct (dir_here s u P d n p st es ro o w H W Hsp Hat Hex Hnm Hb Ho Hlf E) as (s' & -> & H' & W' & Hd & -> & OM & Nx & Di & Em & Ms). cbn [l_fs l_unread].
  destruct (one_more_any s s' d n P H OM Hat Em) as (_ & New & _).
  assert (Only : forall q x, at_names s' ((P ++ [n]) ++ q) = Some x -> q = [] /\ x = f_next s).
  { intros [|m q] x K; [rewrite app_nil_r, New in K; split; congruence|exfalso].
    unfold at_names in K, New. rewrite tree_at_app, New in K. cbn in K. unfold entry in K. rewrite Em in K. discriminate. }
  constructor.
  - exact H'.
  - exact W'.
  - rewrite (om_rest _ _ _ _ _ OM). exact Hsp.
  - exact New.
  - intros q x K. destruct (Only q x K) as [-> ->]. exists (RDir st es). split; [reflexivity|exact Di].
  - intros q x st' es' K Kt. destruct (Only q x K) as [-> ->]. cbn in Kt. injection Kt as <- <-. left. unfold upd. rewrite Nat.eqb_refl. auto.
Qed.
Lemma used_mapped T o t ro w w' : real_tree t -> Forall (ordinary slash) T -> T <> [] -> (forall m rest, T = m :: rest -> is_drive_name m = false) ->
  mapped T o t ro (l_fs w) (l_unread w) None -> used T o w w' -> mapped T o t ro (l_fs w') (l_unread w') None.
Proof.
  intros Wt FT HT Hdr M U. induction U as [|w1 w2 q r U IH K|w1 w2 w3 q x l U IH K Kd K2|w1 c U IH A Wl].
  - exact M.
  - destruct w1 as [s1 u1]. cbn [l_fs l_unread] in IH.
    destruct (look_ok T o t ro Wt FT Hdr HT q s1 u1 [] o t r w2 IH) as (s' & u' & -> & M' & _); [rewrite app_nil_r; apply (mp_top _ _ _ _ _ _ _ IH)|reflexivity|exact K|exact M'].
  - destruct w1 as [s1 u1]. cbn [l_fs l_unread] in IH.
    destruct (look_ok T o t ro Wt FT Hdr HT q s1 u1 [] o t (Some x) w2 IH) as (s' & u' & -> & M' & _ & _ & A); [rewrite app_nil_r; apply (mp_top _ _ _ _ _ _ _ IH)|reflexivity|exact K|].
    cbn [app l_fs] in *. destruct (at_tree t q) as [l'|] eqn:El; [|discriminate]. destruct A as (y & [= <-] & Hy).
    destruct (mp_node _ _ _ _ _ _ _ M' q x Hy) as (l0 & El0 & Nd). rewrite El in El0. injection El0 as <-.
    unfold list_names in K2. apply lbind_inv in K2. destruct K2 as (es2 & w4 & K2 & K3). cbn in K3. injection K3 as _ <-.
    destruct l' as [st data|text|st es].
    + rewrite (leaf_is_body _ _ _ _ Nd) in Kd. discriminate.
    + rewrite (leaf_is_body _ _ _ _ Nd) in Kd. discriminate.
    + destruct (contents_ok T o t ro Wt FT Hdr HT s' u' q x st es es2 w4 M' Hy El K2) as (s2 & u2 & -> & M2 & _). exact M2.
  - cbn [l_fs l_unread]. destruct IH as [A1 A2 A3 A4 A5 A6]. set (s2 := snd (step c (l_fs w1))) in *.
    constructor.
    + apply (step_pres c (l_fs w1) A1).
    + exact Wl.
    + unfold s2. rewrite call_cfg. exact A3.
    + rewrite <- (app_nil_r T). apply (A [] o). rewrite app_nil_r. exact A4.
    + intros q x K. apply A in K. destruct (A5 q x K) as (l & E1 & E2). exists l. split; [exact E1|]. apply (node_same ro (l_fs w1)); [apply (A q x), K|exact E2].
    + intros q x st es K Kt. apply A in K. unfold ents. rewrite (proj2 (A q x) K). apply (A6 q x st es K Kt).
Qed.

(** Every lookup in the mapped directory, whatever was looked at before,
    answers as the real directory does: what is there is found and is a copy of
    it, what is not there is not found. *)
Theorem C77_lookups_partial : forall c s p P n d, mapping c s p P n d -> forall u st es ro o w, real_tree (RDir st es) ->
  add_lazy p st es ro (mklfs s u) = (Ok o, w) ->
  forall w1 q r w2, used (P ++ [n]) o w w1 -> look o q w1 = (Ok r, w2) ->
  match at_tree (RDir st es) q with
  | Some l => exists x, r = Some x /\ at_names (l_fs w2) (P ++ n :: q) = Some x /\ node_is ro (l_fs w2) x l
  | None => r = None
  end.
Proof.
  intros c s p P n d Ma u st es ro o w Wt E w1 q r w2 U K.
  assert (M := start_mapped c s p P n d u st es ro o w Ma Wt E).
  assert (FT : Forall (ordinary slash) (P ++ [n])).
  { rewrite <- (mp_sep _ _ _ _ _ _ _ M). apply (at_names_ordinary _ (mp_inv _ _ _ _ _ _ _ M) _ root_oid o), (mp_top _ _ _ _ _ _ _ M). }
  assert (HT : P ++ [n] <> []) by (destruct P; discriminate).
  assert (M1 := used_mapped _ _ _ _ _ _ Wt FT HT (ma_drive _ _ _ _ _ _ Ma) M U). destruct w1 as [s1 u1]. cbn [l_fs l_unread] in M1.
  destruct (look_ok _ _ _ _ Wt FT (ma_drive _ _ _ _ _ _ Ma) HT q s1 u1 [] o (RDir st es) r w2 M1) as (s' & u' & -> & M' & _ & _ & A);
    [rewrite app_nil_r; apply (mp_top _ _ _ _ _ _ _ M1)|reflexivity|exact K|]. cbn [app l_fs] in *.
  destruct (at_tree (RDir st es) q) as [l|] eqn:El; [|exact A]. destruct A as (x & -> & Hx). exists x. split; [reflexivity|].
  destruct (mp_node _ _ _ _ _ _ _ M' q x Hx) as (l' & E1 & E2). rewrite El in E1. injection E1 as <-. split; [|exact E2].
  rewrite <- app_assoc in Hx. exact Hx.
Qed.
Print Assumptions C77_lookups_partial.

(** os.listdir answers with the names of the real directory, in its order. *)
Theorem C77_listings_partial : forall c s p P n d, mapping c s p P n d -> forall u st es ro o w, real_tree (RDir st es) ->
  add_lazy p st es ro (mklfs s u) = (Ok o, w) ->
  forall w1 q x w2 st' es' l w3, used (P ++ [n]) o w w1 -> look o q w1 = (Ok (Some x), w2) -> at_tree (RDir st es) q = Some (RDir st' es') ->
  list_names x w2 = (Ok l, w3) -> l = map fst es'.
Proof.
  intros c s p P n d Ma u st es ro o w Wt E w1 q x w2 st' es' l w3 U K Kt K2.
  assert (M := start_mapped c s p P n d u st es ro o w Ma Wt E).
  assert (FT : Forall (ordinary slash) (P ++ [n])).
  { rewrite <- (mp_sep _ _ _ _ _ _ _ M). apply (at_names_ordinary _ (mp_inv _ _ _ _ _ _ _ M) _ root_oid o), (mp_top _ _ _ _ _ _ _ M). }
  assert (HT : P ++ [n] <> []) by (destruct P; discriminate).
  assert (M1 := used_mapped _ _ _ _ _ _ Wt FT HT (ma_drive _ _ _ _ _ _ Ma) M U). destruct w1 as [s1 u1]. cbn [l_fs l_unread] in M1.
  destruct (look_ok _ _ _ _ Wt FT (ma_drive _ _ _ _ _ _ Ma) HT q s1 u1 [] o (RDir st es) (Some x) w2 M1) as (s' & u' & -> & M' & _ & _ & A);
    [rewrite app_nil_r; apply (mp_top _ _ _ _ _ _ _ M1)|reflexivity|exact K|]. cbn [app l_fs] in *. rewrite Kt in A. destruct A as (y & [= <-] & Hy).
  unfold list_names in K2. apply lbind_inv in K2. destruct K2 as (es2 & w4 & K2 & K3). cbn in K3. injection K3 as <- _.
  destruct (contents_ok _ _ _ _ Wt FT (ma_drive _ _ _ _ _ _ Ma) HT s' u' q x st' es' es2 w4 M' Hy Kt K2) as (s2 & u2 & _ & _ & _ & _ & _ & A). exact A.
Qed.
Print Assumptions C77_listings_partial.

(** A lookup changes nothing but that directories of the mapped tree get their
    entries: every path leads to the object it led to, all other objects are
    what they were, new paths are below the mapped directory. *)
Theorem C77_frame : forall c s p P n d, mapping c s p P n d -> forall u st es ro o w, real_tree (RDir st es) ->
  add_lazy p st es ro (mklfs s u) = (Ok o, w) ->
  forall w1 q r w2, used (P ++ [n]) o w w1 -> look o q w1 = (Ok r, w2) -> let s1 := l_fs w1 in let s2 := l_fs w2 in
  (forall a x, at_names s1 a = Some x -> at_names s2 a = Some x) /\
  (forall a x, at_names s2 a = Some x -> at_names s1 a = Some x \/ (f_next s1 <= x /\ exists b, b <> [] /\ a = P ++ n :: b)) /\
  (forall x, x < f_next s1 -> ob s2 x = ob s1 x \/
     (is_dirobj s1 x = true /\ but_entries (ob s2 x) (ob s1 x) /\ exists b, at_names s1 (P ++ n :: b) = Some x)) /\
  s2 = set_mounts (set_ino (set_next (set_heap s1 (f_heap s2)) (f_next s2)) (f_ino s2)) (f_mounts s2) /\
  (* and the same lookup again changes nothing at all *)
  look o q w2 = (Ok r, w2).
Proof.
  intros c s p P n d Ma u st es ro o w Wt E w1 q r w2 U K.
  assert (M := start_mapped c s p P n d u st es ro o w Ma Wt E).
  assert (FT : Forall (ordinary slash) (P ++ [n])).
  { rewrite <- (mp_sep _ _ _ _ _ _ _ M). apply (at_names_ordinary _ (mp_inv _ _ _ _ _ _ _ M) _ root_oid o), (mp_top _ _ _ _ _ _ _ M). }
  assert (HT : P ++ [n] <> []) by (destruct P; discriminate).
  assert (M1 := used_mapped _ _ _ _ _ _ Wt FT HT (ma_drive _ _ _ _ _ _ Ma) M U). destruct w1 as [s1 u1]. cbn [l_fs l_unread] in M1.
  destruct (look_ok _ _ _ _ Wt FT (ma_drive _ _ _ _ _ _ Ma) HT q s1 u1 [] o (RDir st es) r w2 M1) as (s' & u' & -> & M' & [N1 O1 F1 B1 R1] & (_ & Rp & Er) & _);
    [rewrite app_nil_r; apply (mp_top _ _ _ _ _ _ _ M1)|reflexivity|exact K|]. cbn [l_fs]. cbv zeta.
  split; [exact F1|]. split.
  { intros a x Ka. destruct (B1 a x Ka) as [K1|(K1 & b & Hb & ->)]; [left; exact K1|right]. split; [exact K1|]. exists b. rewrite <- app_assoc. auto. }
  split.
  { intros x Hx. destruct (O1 x Hx) as [K1|(K1 & _ & K2 & b & Kb)]; [left; exact K1|right]. split; [exact K1|]. split; [exact K2|]. exists b. rewrite <- app_assoc in Kb. exact Kb. }
  split; [exact R1|]. rewrite (read_look s' u' q (Ginv_cs s' (mp_inv _ _ _ _ _ _ _ M')) o Rp), <- Er. reflexivity.
Qed.
Print Assumptions C77_frame.

(** ** The hypotheses are met *)
Definition c77_stat : rstat := mkrstat 16832 1000 1000 0 1 2 3.
Definition c77_es : list (str * rtree) := match c74_tree with RDir _ es => es | _ => [] end.
Definition nothing_unread : oid -> option (bool * list (str * rtree)) := fun _ => None.
Definition c77_w : lfs := snd (add_lazy (L "/d/e/real") c77_stat c77_es true (mklfs tree_state nothing_unread)).
Definition c77_w1 : lfs := snd (look 6 [L "sub"; L "g"] c77_w).
Definition c77_w2 : lfs := snd (look 6 [L "sub"; L "none"] c77_w1).
Lemma c77_mapping : mapping posix_cfg tree_state (L "/d/e/real") [L "d"; L "e"] (L "real") 5.
Proof.
  constructor.
  - exact posix_cfg_linux.
  - exact tree_reachable.
  - exact tree_state_limits.
  - reflexivity.
  - vm_compute. reflexivity.
  - vm_compute. reflexivity.
  - vm_compute. reflexivity.
  - intros pre n l rest (E & A & B). destruct pre as [|x [|y [|z pre]]]; cbn in E; try discriminate E.
    + injection E as <- <-. assert (Some l = Some 2) as [= ->] by (rewrite <- A; vm_compute; reflexivity). vm_compute in B. discriminate B.
    + injection E as <- <- <-. assert (Some l = Some 5) as [= ->] by (rewrite <- A; vm_compute; reflexivity). vm_compute in B. discriminate B.
  - vm_compute. reflexivity.
  - repeat split; try discriminate. cbn. intros K. repeat (destruct K as [K|K]; [discriminate K|]). contradiction.
  - intros m rest E. cbn in E. injection E as <- _. reflexivity.
Qed.
Example C77_case : mapping posix_cfg tree_state (L "/d/e/real") [L "d"; L "e"] (L "real") 5 /\ real_tree (RDir c77_stat c77_es) /\
  fst (add_lazy (L "/d/e/real") c77_stat c77_es true (mklfs tree_state nothing_unread)) = Ok 6 /\
  (* nothing has been read yet *)
  listdir (l_fs c77_w) (PStr (L "/d/e/real")) = Ok [] /\
  (* one level after the other is read *)
  fst (look 6 [L "sub"; L "g"] c77_w) = Ok (Some 11) /\
  used [L "d"; L "e"; L "real"] 6 c77_w c77_w2 /\
  fst (look 6 [L "sub"; L "none"] c77_w1) = Ok None /\
  listdir (l_fs c77_w2) (PStr (L "/d/e/real")) = Ok [L "f"; L "sub"; L "empty"] /\
  fst (list_names 8 c77_w2) = Ok [L "l"; L "g"] /\ l_unread c77_w2 9 = Some (true, []).
Proof.
  split; [exact c77_mapping|]. split.
  { intros q st es E. pose proof c74_tree_ok as K. destruct q as [|w q].
    - cbn in E. injection E as <- <-. apply (K [] (mkrstat 16832 1000 1000 0 1 1 1)). reflexivity.
    - apply (K (w :: q) st es). exact E. }
  split; [vm_compute; reflexivity|]. split; [vm_compute; reflexivity|]. split; [vm_compute; reflexivity|]. split.
  { apply (us_look _ _ _ c77_w1 _ [L "sub"; L "none"] None).
    - apply (us_look _ _ _ c77_w _ [L "sub"; L "g"] (Some 11)); [apply us_start|]. unfold c77_w1. apply pair_eq; vm_compute; reflexivity.
    - unfold c77_w2. apply pair_eq; vm_compute; reflexivity. }
  split; [vm_compute; reflexivity|]. split; [vm_compute; reflexivity|]. split; vm_compute; reflexivity.
Qed.

(** ** Where the full statement fails *)
(** A directory counts as read as soon as reading it starts: if that fails, what
    has not been reached by then is missing from then on.  Another user than root
    cannot look into a copy of a directory without write bits: the first lookup
    raises EACCES, after that the directory is empty. *)
Definition c77_user : fs := run (init posix_cfg None 18 0 0 0) [SetUid 1000].
Definition c77_ro : lfs := snd (add_lazy (L "/real") (mkrstat 16749 0 0 0 1 1 1) [(L "f", RFile (c73_stat 3) (L "abc"))] true (mklfs c77_user nothing_unread)).
Theorem C77_unwritable_refuted : exists s st es o w w1,
  reachable posix_cfg s /\ within_limits s /\ S_ISDIR (r_mode st) = true /\ add_lazy (L "/real") st es true (mklfs s nothing_unread) = (Ok o, w) /\
  at_tree (RDir st es) [L "f"] <> None /\
  look o [L "f"] w = (Err (OSErr EACCES), w1) /\ fst (look o [L "f"] w1) = Ok None /\ fst (list_names o w1) = Ok [].
Proof.
  exists c77_user, (mkrstat 16749 0 0 0 1 1 1), [(L "f", RFile (c73_stat 3) (L "abc"))], 2, c77_ro, (snd (look 2 [L "f"] c77_ro)).
  split; [exists None, 18%N, 0%Z, 0%Z, 0%Z, [SetUid 1000]; reflexivity|]. split.
  { intros k m t Hin Ht. assert (E : f_mounts c77_user = [([slash], {| m_idev := 1; m_total := None; m_used := 0 |})]) by (vm_compute; reflexivity).
    rewrite E in Hin. destruct Hin as [Hin|[]]. injection Hin as <- <-. discriminate Ht. }
  split; [reflexivity|]. split; [unfold c77_ro; apply pair_eq; vm_compute; reflexivity|]. split; [discriminate|].
  split; [apply pair_eq; vm_compute; reflexivity|]. split; vm_compute; reflexivity.
Qed.
Print Assumptions C77_unwritable_refuted.
(** On a disk that is too small, the first lookup raises ENOSPC, even for a file
    that would fit; after that the file that did not fit is there with all its
    bytes, what comes after it in the directory is not. *)
Definition c77_small : fs := run (init posix_cfg (Some 5%Z) 18 0 0 0) [].
Definition c77_two : list (str * rtree) := [(L "big", RFile (c73_stat 9) (L "123456789")); (L "f", RFile (c73_stat 3) (L "abc"))].
Definition c77_full : lfs := snd (add_lazy (L "/real") c77_stat c77_two true (mklfs c77_small nothing_unread)).
Theorem C77_full_refuted : exists s st es o w w1,
  reachable posix_cfg s /\ add_lazy (L "/real") st es true (mklfs s nothing_unread) = (Ok o, w) /\
  at_tree (RDir st es) [L "f"] <> None /\ look o [L "f"] w = (Err (OSErr ENOSPC), w1) /\
  fst (look o [L "f"] w1) = Ok None /\ fst (list_names o w1) = Ok [L "big"].
Proof.
  exists c77_small, c77_stat, c77_two, 2, c77_full, (snd (look 2 [L "f"] c77_full)).
  split; [exists (Some 5%Z), 18%N, 0%Z, 0%Z, 0%Z, []; reflexivity|].
  split; [unfold c77_full; apply pair_eq; vm_compute; reflexivity|]. split; [discriminate|].
  split; [apply pair_eq; vm_compute; reflexivity|]. split; vm_compute; reflexivity.
Qed.
Print Assumptions C77_full_refuted.
(** With a slash at the end of target_path, the directory is entered under the
    empty name into a directory of that name, which hides all of it. *)
Definition c77_root : fs := run (init posix_cfg None 18 0 0 0) [].
Definition c77_slash : lfs := snd (add_lazy (L "/m/") c77_stat c77_es true (mklfs c77_root nothing_unread)).
Theorem C77_slash_refuted : exists s st es o w,
  reachable posix_cfg s /\ add_lazy (L "/m/") st es true (mklfs s nothing_unread) = (Ok o, w) /\
  at_tree (RDir st es) [L "f"] <> None /\
  (exists m, resolve (l_fs w) (L "/m") true = Ok m /\ m <> o /\ l_unread w m = None /\ fst (list_names m w) = Ok [[]]) /\
  exists_ (l_fs w) (L "/m/f") false = Ok false.
Proof.
  exists c77_root, c77_stat, c77_es, 3, c77_slash. split; [exists None, 18%N, 0%Z, 0%Z, 0%Z, []; reflexivity|].
  split; [unfold c77_slash; apply pair_eq; vm_compute; reflexivity|]. split; [discriminate|]. split; [|vm_compute; reflexivity].
  exists 2. split; [vm_compute; reflexivity|]. split; [discriminate|]. split; [vm_compute; reflexivity|]. vm_compute; reflexivity.
Qed.
Print Assumptions C77_slash_refuted.
