(** * Property C74: fs.add_real_directory(lazy_read=False).

    A real tree is an [rtree] (AddRealModel.v); [at_tree t r] is what is at the
    relative path [r] in it, [leaf] says that it is a file or a link (not a
    directory), [real_tree]: the names in a directory are different and ordinary
    (AddRealTree.v).  [leaf_is ro s x l] (AddRealDir.v): the object [x] of the
    fake filesystem has the bytes, size, owner, times and mode of the file [l]
    (without write and execute bits if [ro]), or is a link with the text of
    [l].  [but_entries a b]: [a] and [b] are equal but for the entries and their
    number. *)
From Verif Require Import SysModel FsSpec OpsThm6 ExtProofs PropFd PropOpen PropTree PropOps PropMake AddRealModel AddRealThm AddRealTree AddRealDir TreeThm.

Theorem C74_add_real_directory_partial : forall c s, linux_like c -> reachable c s -> within_limits s -> c_sep c = slash ->
  forall p T, p <> [] -> names_of s p T -> (forall pre n l rest, ~ meets_link s T pre n l rest) ->
  (forall n rest, T = n :: rest -> is_drive_name n = false) ->
  forall t ro o s', real_tree t -> add_real_directory p t ro s = (Ok o, s') ->
  (* first the directory is made, as by create_dir (C32) *)
  exists b, create_dir p PERM_DEF s = (Ok o, b) /\ at_names b T = Some o /\
    (* every file and link of the real tree is at its path *)
    (forall r l, r <> [] -> at_tree t r = Some l -> leaf l = true ->
       exists x, at_names s' (T ++ r) = Some x /\ leaf_is ro s' x l) /\
    (* there is nothing else but the directories above them *)
    (forall r x, at_names s' (T ++ r) = Some x -> r <> [] ->
       exists l, at_tree t r = Some l /\
         (leaf l = true \/
          is_dirobj s' x = true /\ o_mode (ob s' x) = N.lor S_IFDIR PERM_DEF /\
          exists r2 l2, at_tree t (r ++ r2) = Some l2 /\ leaf l2 = true)) /\
    (* elsewhere nothing changed *)
    (forall q x, (forall r, q <> T ++ r) -> (at_names s' q = Some x <-> at_names b q = Some x)) /\
    (forall x, x < f_next b -> x <> o -> ob s' x = ob b x) /\ but_entries (ob s' o) (ob b o) /\ still_there s s' /\
    s' = set_mounts (set_ino (set_next (set_heap b (f_heap s')) (f_next s')) (f_ino s')) (f_mounts s').
Proof.
  intros c s Hl Hrc W Hs p T Hp Hn Hlf Hdr t ro o s' Wt E. destruct (reachable_GP c s Hl Hrc) as [H _].
  assert (Hsp : sepc s = slash) by (rewrite (reachable_cfg c s Hrc); exact Hs).
  unfold add_real_directory in E. unfold bind at 1 in E. destruct (create_dir p PERM_DEF s) as [[o'|e] b] eqn:Ecd; [|discriminate].
  match type of E with bind ?m ?k b = _ => destruct (m b) as [[u|e] s2] eqn:E2; [rewrite (bind_ok m k b u s2 E2) in E|rewrite (bind_err m k b e s2 E2) in E; discriminate] end.
  unfold ret in E. injection E as -> ->. destruct u.
  assert (Hb : Ginv b) by (pose proof (create_dir_pres p PERM_DEF s H) as K; rewrite Ecd in K; exact K).
  destruct (names_of_anp s p T (Ginv_good s H) Hp Hn) as [Fo Eo].
  assert (Hmp : make_string_path (f_cfg s) p = p) by (apply make_string_path_slash; exact Hsp). rewrite <- Hmp in Eo.
  pose proof (wp_elim _ _ _ _ _ (create_dir_spec s p PERM_DEF T H W Eo Fo Hlf) Ecd) as K. cbv beta in K.
  destruct K as [(e & K & _)|(a & n & rest & d & En & Ha & Hdd & K & DM)]; [discriminate|].
  assert (Eo1 : o = f_next s + length rest) by congruence. clear K.
  destruct (dirs_made_paths s b d n rest _ a H Hdd DM Ha) as [Fw Bw].
  destruct (dirs_made_at s b d n rest _ a H Hdd Ha DM) as [_ K2]. destruct (K2 (length rest) (le_n _)) as (K3 & K4 & _).
  rewrite firstn_all, <- En, <- Eo1 in K3. rewrite <- Eo1 in K4. clear K2.
  assert (Xb := dirs_made_ext s b d n rest _ H Hdd DM).
  assert (Hsb : sepc b = slash) by (rewrite <- (ex_cfg _ _ Xb); exact Hsp).
  assert (Wb : within_limits b) by (intros k m z; rewrite (dm_rest _ _ _ _ _ DM); apply W).
  (* the new directory is empty *)
  assert (Emp : forall m, entry b o m = None).
  { assert (exists nk, nth_error (n :: rest) (length rest) = Some nk) as [nk Hnk].
    { destruct (nth_error (n :: rest) (length rest)) eqn:En'; [eauto|]. apply nth_error_None in En'. cbn in En'. lia. }
    destruct (dm_new _ _ _ _ _ DM (length rest) nk Hnk) as (Hbd & _). rewrite <- Eo1 in Hbd.
    assert (nth_error (n :: rest) (S (length rest)) = None) as Hz by (apply nth_error_None; cbn; lia). rewrite Hz in Hbd.
    intros m. unfold entry, ents. rewrite Hbd. reflexivity. }
  assert (B0 : built b T o ro b []).
  { constructor; try assumption.
    - constructor; auto.
    - apply le_n.
    - intros es k. reflexivity.
    - reflexivity.
    - intros r l [].
    - intros r x Kx. destruct r as [|m r]; [rewrite app_nil_r, K3 in Kx; left; split; congruence|]. exfalso.
      replace (T ++ m :: r) with ((T ++ [m]) ++ r) in Kx by (rewrite <- app_assoc; reflexivity).
      unfold at_names in Kx. rewrite !tree_at_app in Kx. fold (at_names b T) in Kx. rewrite K3 in Kx. cbn in Kx.
      rewrite (Emp m) in Kx. discriminate.
    - destruct b; reflexivity. }
  assert (FT : Forall (ordinary slash) T) by (rewrite <- Hsp; exact Fo).
  assert (B := walk_loop b T o t ro Wt Hsb FT s' Hdr (real_walk [] t) [] b eq_refl B0 E2).
  exists b. split; [reflexivity|]. split; [exact K3|]. split; [|split; [|split; [|split; [|split; [|split]]]]].
  - intros r l Hr Er Lf. apply (bu_leaf _ _ _ _ _ _ B). apply order_all; assumption.
  - intros r x Kx Hr. destruct (bu_only _ _ _ _ _ _ B r x Kx) as [[K _]|(_ & r2 & l & Hin & K)]; [contradiction|].
    destruct (order_only t _ _ Wt Hin) as (Et & Lf & _). destruct K as [->|(Hne & K1 & K2)].
    + rewrite app_nil_r in Et. exists l. split; [exact Et|left; exact Lf].
    + rewrite at_tree_app in Et. destruct (at_tree t r) as [l1|] eqn:El; [|discriminate]. exists l1. split; [reflexivity|]. right. split; [exact K1|]. split; [exact K2|].
      exists r2, l. rewrite at_tree_app, El. auto.
  - assert (X := bu_ext _ _ _ _ _ _ B). intros q x Hq. split; [|apply (ext_at b s' q x X)]. revert x Hq.
    induction q as [|m q IH] using rev_ind; intros x Hq Kx; [exact Kx|]. apply at_names_snoc_inv in Kx. destruct Kx as (e & Ke & Km).
    destruct (Nat.eq_dec e o) as [->|Ne].
    + exfalso. assert (q = T) by (apply (dir_one_path s' (bu_inv _ _ _ _ _ _ B) q T o); [apply (bu_topd _ _ _ _ _ _ B)|exact Ke|apply (bu_top _ _ _ _ _ _ B)]).
      apply (Hq [m]). subst q. reflexivity.
    + assert (Kb : at_names b q = Some e).
      { apply IH; [|exact Ke]. intros r ->. apply (Hq (r ++ [m])). rewrite <- app_assoc. reflexivity. }
      rewrite (at_names_snoc b q m e Kb). unfold entry, ents in *. rewrite (bu_old _ _ _ _ _ _ B e) in Km; [exact Km| |exact Ne].
      apply (at_names_lt b q e Hb Kb).
  - apply (bu_old _ _ _ _ _ _ B).
  - apply (bu_topo _ _ _ _ _ _ B).
  - apply (still_trans s b s'); [apply ext_still; assumption|]. apply ext_still; [exact Hb|apply (bu_inv _ _ _ _ _ _ B)|apply (bu_ext _ _ _ _ _ _ B)].
  - apply (bu_rest _ _ _ _ _ _ B).
Qed.
Print Assumptions C74_add_real_directory_partial.

(** a tree with a file, a link and two directories, one of them empty *)
Definition c74_tree : rtree := RDir (mkrstat 16832 1000 1000 0 1 1 1)
  [(L "f", RFile (mkrstat 33261 1000 1000 3 5 6 7) (L "abc"));
   (L "sub", RDir (mkrstat 16832 1000 1000 0 1 1 1) [(L "l", RLink (L "../f")); (L "g", RFile (mkrstat 33188 0 0 2 5 6 7) (L "xy"))]);
   (L "empty", RDir (mkrstat 16832 1000 1000 0 1 1 1) [])].
Definition c74_after : fs := snd (add_real_directory (L "/d/e/real") c74_tree true tree_state).
Lemma c74_tree_ok : real_tree c74_tree.
Proof.
  assert (O : forall w, In w [L "f"; L "sub"; L "empty"; L "l"; L "g"] -> ordinary slash w).
  { intros w K. destruct K as [<-|[<-|[<-|[<-|[<-|[]]]]]]; (repeat split; try discriminate; cbn; intros K; repeat (destruct K as [K|K]; [discriminate K|]); contradiction). }
  assert (N1 : NoDup [L "f"; L "sub"; L "empty"]) by (repeat constructor; cbn; intros K; repeat (destruct K as [K|K]; [discriminate K|]); contradiction).
  assert (N2 : NoDup [L "l"; L "g"]) by (repeat constructor; cbn; intros K; repeat (destruct K as [K|K]; [discriminate K|]); contradiction).
  intros q st es E. destruct q as [|w q].
  - cbn in E. injection E as <- <-. split; [exact N1|]. repeat constructor; apply O; cbn; auto 6.
  - unfold c74_tree in E. cbn [at_tree assoc] in E.
    destruct (str_eqb w (L "f")); [destruct q; discriminate E|]. destruct (str_eqb w (L "sub")).
    + destruct q as [|v q]; [cbn in E; injection E as <- <-; split; [exact N2|]; repeat constructor; apply O; cbn; auto 6|].
      cbn [at_tree assoc] in E. destruct (str_eqb v (L "l")); [destruct q; discriminate E|]. destruct (str_eqb v (L "g")); [destruct q; discriminate E|discriminate E].
    + destruct (str_eqb w (L "empty")); [|discriminate E]. destruct q as [|v q]; [cbn in E; injection E as <- <-; split; constructor|discriminate E].
Qed.
Example C74_case : real_tree c74_tree /\ fst (add_real_directory (L "/d/e/real") c74_tree true tree_state) = Ok 6 /\
  within_limits tree_state /\ names_of tree_state (L "/d/e/real") [L "d"; L "e"; L "real"] /\
  (forall pre n l rest, ~ meets_link tree_state [L "d"; L "e"; L "real"] pre n l rest) /\
  listdir c74_after (PStr (L "/d/e/real")) = Ok [L "f"; L "sub"] /\
  listdir c74_after (PStr (L "/d/e/real/sub")) = Ok [L "l"; L "g"] /\
  readlink c74_after (L "/d/e/real/sub/l") = Ok (L "../f").
Proof.
  split; [exact c74_tree_ok|]. split; [vm_compute; reflexivity|]. split; [exact tree_state_limits|]. split; [vm_compute; reflexivity|]. split.
  { intros pre n l rest (E & A & B). destruct pre as [|x [|y [|z pre]]]; cbn in E; try discriminate E.
    - injection E as <- <-. assert (Some l = Some 2) as [= ->] by (rewrite <- A; vm_compute; reflexivity). vm_compute in B. discriminate B.
    - injection E as <- <- <-. assert (Some l = Some 5) as [= ->] by (rewrite <- A; vm_compute; reflexivity). vm_compute in B. discriminate B.
    - injection E as <- <- <- <-. assert (Some l = None) as [=] by (rewrite <- A; vm_compute; reflexivity).
    - apply (f_equal (@length _)) in E. cbn in E. rewrite app_length in E. cbn in E. lia. }
  split; [vm_compute; reflexivity|]. split; vm_compute; reflexivity.
Qed.

(** the full statement is false: directories without files are left out, the
    modes of directories are lost *)
Theorem C74_directories_refuted : exists s t, reachable posix_cfg s /\ real_tree t /\
  at_tree t [L "empty"] = Some (RDir (mkrstat 16832 1000 1000 0 1 1 1) []) /\
  exists st es, at_tree t [L "sub"] = Some (RDir st es) /\ r_mode st = 16832%N /\
  exists o s', add_real_directory (L "/d/e/real") t true s = (Ok o, s') /\
  exists_ s' (L "/d/e/real/empty") true = Ok false /\
  exists x, resolve s' (L "/d/e/real/sub") true = Ok x /\ ss_mode (stat_of s' x) = 16895%N.
Proof.
  exists tree_state, c74_tree. split; [exact tree_reachable|]. split; [exact c74_tree_ok|]. split; [reflexivity|]. eexists _, _. split; [reflexivity|]. split; [reflexivity|].
  exists 6, c74_after. split; [unfold c74_after; apply pair_eq; vm_compute; reflexivity|]. split; [vm_compute; reflexivity|]. eexists. split; [vm_compute; reflexivity|vm_compute; reflexivity].
Qed.

(** below a top level directory that is spelled like a Windows drive, the files
    end up in the current directory *)
Definition c74_ops : list op := [Mkdir (L "/w") 511; Chdir (PStr (L "/w"))].
Definition c74_state : fs := run (init posix_cfg None 18 0 0 0) c74_ops.
Definition c74_moved : fs := snd (add_real_directory (L "/c:/x") c74_tree true c74_state).
Theorem C74_drive_refuted : exists s t, reachable posix_cfg s /\ real_tree t /\ exists o s',
  add_real_directory (L "/c:/x") t true s = (Ok o, s') /\
  listdir s' (PStr (L "/c:/x")) = Ok [] /\ listdir s' (PStr (L "/w/c:/x")) = Ok [L "f"; L "sub"].
Proof.
  exists c74_state, c74_tree. split; [exists None, 18%N, 0%Z, 0%Z, 0%Z, c74_ops; reflexivity|]. split; [exact c74_tree_ok|].
  exists 4, c74_moved. split; [unfold c74_moved; apply pair_eq; vm_compute; reflexivity|]. split; vm_compute; reflexivity.
Qed.
