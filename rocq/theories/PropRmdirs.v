(** * Property C71: os.removedirs *)
From Verif Require Import PropTree PropOps PropHist HonestSpec HistThm OpsThm6 PropFd.
From Verif Require Import OpsThm3 ResThm.

(** Going up from the directory called [names]: while it is empty it is taken
    out of the directory holding it. [pruned s names r s'] says that this ends
    with the result [r] in the state [s']. *)
Inductive pruned : fs -> list str -> res unit -> fs -> Prop :=
(* a directory that is not empty stays *)
| pr_full s names d : resolve s (abs_path (sepc s) names) true = Ok d -> ents s d <> [] -> pruned s names (Ok tt) s
(* a directory called by a symbolic link stays, and so does the link *)
| pr_link s names : islink s (abs_path (sepc s) names) = Ok true -> pruned s names (Ok tt) s
(* an empty one goes, then it is the turn of the directory that held it *)
| pr_gone s pre n d x s1 r s' : resolve s (abs_path (sepc s) pre) false = Ok d -> one_less s s1 d n x ->
    ents s x = [] -> pruned s1 pre r s' -> pruned s (pre ++ [n]) r s'
(* os.rmdir of the directory fails, and so does the call *)
| pr_fail s names e : rmdir (abs_path (sepc s) names) false s = (Err e, s) -> pruned s names (Err e) s.

Lemma one_less_back s s' d n o : Ginv s -> one_less s s' d n o -> forall q x, at_names s' q = Some x -> at_names s q = Some x.
Proof.
  intros H OL q. unfold at_names. generalize root_oid. induction q as [|m q IH]; intros r x E; [exact E|]. cbn [tree_at] in *.
  destruct (one_less_entry s s' d n o H OL) as [K1 K2].
  destruct (entry s' r m) as [y|] eqn:Ey; [|discriminate].
  assert (Hy : entry s r m = Some y). { rewrite <- Ey. symmetry. apply K2. intros [-> ->]. congruence. }
  rewrite Hy. apply IH, E.
Qed.
Lemma one_less_cfg s s' d n o : one_less s s' d n o -> f_cfg s' = f_cfg s.
Proof. intros OL. rewrite (ol_rest _ _ _ _ _ OL). reflexivity. Qed.
Lemma one_less_kind s s' d n o : Ginv s -> one_less s s' d n o -> forall x, o_mode (ob s' x) = o_mode (ob s x) /\ is_dirobj s' x = is_dirobj s x /\ o_name (ob s' x) = o_name (ob s x).
Proof.
  intros H OL x. pose proof (entry_dirobj _ _ _ _ (ol_was _ _ _ _ _ OL)) as Hd. destruct (Nat.eq_dec x d) as [->|N1].
  - rewrite Hd. unfold is_dirobj. rewrite (ol_dir _ _ _ _ _ OL). repeat split; reflexivity.
  - unfold is_dirobj. destruct (Nat.eq_dec x o) as [->|N2]; [rewrite (ol_obj _ _ _ _ _ OL); repeat split; reflexivity|].
    rewrite (ol_other _ _ _ _ _ OL x N1 N2). repeat split; reflexivity.
Qed.
Lemma one_less_null s s' d n o : Ginv s -> one_less s s' d n o -> forall names, is_null s' names <-> is_null s names.
Proof. intros H OL names. unfold is_null, sepc, devnull_name. rewrite (one_less_cfg _ _ _ _ _ OL). destruct (one_less_kind _ _ _ _ _ H OL devnull_oid) as (_ & _ & ->). reflexivity. Qed.
Lemma one_less_null_free s s' d n o : Ginv s -> one_less s s' d n o -> null_free s -> null_free s'.
Proof.
  intros H OL NF names K. destruct (at_names s' names) as [x|] eqn:E; [|reflexivity]. apply (one_less_back _ _ _ _ _ H OL) in E.
  rewrite NF in E; [discriminate|]. apply (one_less_null _ _ _ _ _ H OL), K.
Qed.
Definition dir_bits (s : fs) : Prop := forall o, has_bit (o_mode (ob s o)) S_IFDIR = is_dirobj s o.
Lemma one_less_bits s s' d n o : Ginv s -> one_less s s' d n o -> dir_bits s -> dir_bits s'.
Proof.
  intros H OL HD x. destruct (one_less_kind _ _ _ _ _ H OL x) as (K1 & K2 & _). rewrite K2, K1. apply HD.
Qed.

Lemma anp_of s names : Ginv s -> Forall (ordinary (sepc s)) names -> anp s (abs_path (sepc s) names) = abs_path (sepc s) names.
Proof. intros H Hn. apply anp_abs_path; [apply Ginv_good, H|exact Hn]. Qed.
Lemma abs_not_dot s names : Ginv s -> str_eqb (abs_path (sepc s) names) dot = false.
Proof.
  intros H. destruct (str_eqb_spec (abs_path (sepc s) names) dot) as [E|]; [|reflexivity]. exfalso.
  assert (K : hd_error (abs_path (sepc s) names) = Some (sepc s)) by (destruct names; reflexivity). rewrite E in K. injection K as K. apply (ll_sep _ (gi_lin s H)). symmetry. exact K.
Qed.
Lemma rmdir_true s names : Ginv s -> Forall (ordinary (sepc s)) names ->
  rmdir (abs_path (sepc s) names) true s = rmdir (abs_path (sepc s) names) false s \/
  (islink s (abs_path (sepc s) names) = Ok true /\ rmdir (abs_path (sepc s) names) true s = (Ok tt, s)).
Proof.
  intros H Hn. unfold rmdir, bind, gets, lift, ret. rewrite (abs_not_dot s names H), (anp_of s names H Hn), (Ginv_win s H), (Ginv_mac s H).
  destruct (confirmdir s (abs_path (sepc s) names)); [|left; reflexivity].
  destruct (islink s (abs_path (sepc s) names)) as [[|]|e]; [right; split; reflexivity|left; reflexivity|left; reflexivity].
Qed.
Lemma confirm_fail s names e : Ginv s -> Forall (ordinary (sepc s)) names -> confirmdir s (abs_path (sepc s) names) = Err e ->
  rmdir (abs_path (sepc s) names) false s = (Err e, s).
Proof.
  intros H Hn E. unfold rmdir, bind, gets, lift, ret. rewrite (abs_not_dot s names H), (anp_of s names H Hn), E. reflexivity.
Qed.

Lemma abs_inj s a b : Ginv s -> Forall (ordinary (sepc s)) a -> Forall (ordinary (sepc s)) b -> abs_path (sepc s) a = abs_path (sepc s) b -> a = b.
Proof. intros H Ha Hb. apply (abs_path_clean_inj (f_cfg s) (gi_lin s H)); apply Forall_clean; assumption. Qed.
Lemma abs_nonempty sp names : nonempty (abs_path sp names) = true.
Proof. destruct names; reflexivity. Qed.
Lemma rmdir_gone s names : Ginv s -> null_free s -> dir_bits s -> Forall (ordinary (sepc s)) names -> ~ is_null s names ->
  wp (rmdir (abs_path (sepc s) names) false) s (fun r s' =>
    (exists e, s' = s /\ r = Err e) \/
    (r = Ok tt /\ exists pre n d x, names = pre ++ [n] /\ resolve s (abs_path (sepc s) pre) false = Ok d /\ ents s x = [] /\
      (is_link s x = false -> is_dirobj s x = true) /\ one_less s s' d n x)).
Proof.
  intros H NF HD Hn Hnull. eapply wp_conseq; [apply rmdir_spec; [exact H|exact NF|]|].
  - intros names' Hn'. apply names_of_anp in Hn'; [|apply Ginv_good, H|destruct names; discriminate]. destruct Hn' as [Hno Hn'].
    rewrite (anp_of s names H Hn) in Hn'. apply (abs_inj s _ _ H Hn Hno) in Hn'. subst. exact Hnull.
  - intros r s' [(-> & e & ->)|(-> & pre & n & d & x & Ea & Ho & Hd & He & Hx & _ & Hl & OL & _)]; [left; eauto|].
    right. split; [reflexivity|]. exists pre, n, d, x. rewrite (anp_of s names H Hn) in Ea. apply (abs_inj s _ _ H Hn Ho) in Ea.
    split; [exact Ea|]. split; [exact Hd|]. split; [exact Hx|]. split; [|exact OL].
    intros K. destruct (Hl K) as [Hb _]. rewrite <- (HD x). exact Hb.
Qed.

Lemma confirm_spec s p d : dir_bits s -> confirmdir s p = Ok d -> resolve s p true = Ok d /\ is_dirobj s d = true.
Proof.
  intros HD. unfold confirmdir. destruct (resolve s p true) as [x|e]; [|discriminate]. cbn [rbind]. rewrite (HD x). destruct (is_dirobj s x) eqn:E; [|discriminate].
  cbn [negb]. intros K. injection K as <-. auto.
Qed.
Lemma truthy_spec s d : is_dirobj s d = true -> truthy_contents s d = true <-> ents s d <> [].
Proof. unfold is_dirobj, truthy_contents, ents. destruct (o_body (ob s d)) as [[|a l]|]; [split; congruence|split; [discriminate|reflexivity]|discriminate]. Qed.
(** a file that is neither directory nor link *)
Definition files_kept (s s' : fs) : Prop := forall q f, at_names s q = Some f -> is_dirobj s f = false -> is_link s f = false ->
  at_names s' q = Some f /\ ob s' f = ob s f.
Lemma files_kept_trans a b c : files_kept a b -> files_kept b c -> files_kept a c.
Proof.
  intros H1 H2 q f E1 E2 E3. destruct (H1 q f E1 E2 E3) as [K1 K2]. destruct (H2 q f K1) as [L1 L2]; [unfold is_dirobj; rewrite K2; exact E2|unfold is_link; rewrite K2; exact E3|].
  split; [exact L1|congruence].
Qed.
Lemma one_less_files s s' d n x : Ginv s -> one_less s s' d n x -> ents s x = [] -> (is_link s x = false -> is_dirobj s x = true) -> files_kept s s'.
Proof.
  intros H OL He Hx q f E1 E2 E3. split.
  - apply (one_less_at s s' d n x H OL q f E1). intros a b -> Ha. unfold at_names in *. rewrite tree_at_app, Ha in E1. cbn [tree_at] in E1. rewrite (ol_was _ _ _ _ _ OL) in E1.
    destruct b as [|m b]; cbn [tree_at] in E1.
    + injection E1 as ->. rewrite (Hx E3) in E2. discriminate.
    + unfold entry in E1. rewrite He in E1. discriminate.
  - apply (ol_other _ _ _ _ _ OL); intros ->; [rewrite (entry_dirobj _ _ _ _ (ol_was _ _ _ _ _ OL)) in E2; discriminate|]. rewrite (Hx E3) in E2. discriminate.
Qed.
Lemma files_kept_refl s : files_kept s s.
Proof. intros q f E _ _. auto. Qed.
Lemma loop_spec : forall names n fuel s, length names < fuel -> n <> [] -> Ginv s -> null_free s -> dir_bits s ->
  Forall (ordinary (sepc s)) names -> (forall a b, names = a ++ b -> ~ is_null s a) ->
  wp (removedirs_loop fuel (abs_path (sepc s) names) n) s (fun r s' => pruned s names r s' /\ files_kept s s').
Proof.
  induction names as [|m names IH] using rev_ind; intros n fuel s Hf Hne H NF HD Ho Hnull;
    (destruct fuel as [|fuel]; [cbn in Hf; lia|]); cbn [removedirs_loop]; rewrite abs_nonempty; (destruct n as [|a n]; [contradiction|]); cbn [nonempty andb].
  - wstep. destruct (confirmdir s (abs_path (sepc s) [])) as [d|e] eqn:Ec; [|split; [apply pr_fail, confirm_fail; assumption|apply files_kept_refl]].
    destruct (confirm_spec s _ d HD Ec) as [Er Hd].
    wstep. destruct (truthy_contents s d) eqn:Et.
    { wstep. split; [|apply files_kept_refl]. apply (pr_full s [] d Er). apply (truthy_spec s d Hd), Et. }
    apply wp_bind. destruct (rmdir_true s [] H Ho) as [E|[Ei E]]; unfold wp at 1; rewrite E.
    + pose proof (rmdir_gone s [] H NF HD Ho (Hnull [] [] eq_refl)) as K. unfold wp in K. destruct (rmdir (abs_path (sepc s) []) false s) as [r s'] eqn:Erm. cbn [fst snd] in K |- *.
      destruct K as [(e & -> & ->)|(_ & pre & n' & d' & x & K & _)]; [split; [apply pr_fail, Erm|apply files_kept_refl]|]. destruct pre; discriminate.
    + cbn [fst snd]. wstep. cbv zeta. change (abs_path (sepc s) []) with [sepc s]. rewrite (splitpath_root (f_cfg s) (linux_like_posix _ (gi_lin s H))). cbn [fst snd].
      destruct fuel; cbn [removedirs_loop nonempty andb]; wstep; (split; [apply pr_link, Ei|apply files_kept_refl]).
  - rewrite app_length in Hf. cbn [length] in Hf.
    wstep. destruct (confirmdir s (abs_path (sepc s) (names ++ [m]))) as [d|e] eqn:Ec; [|split; [apply pr_fail, confirm_fail; assumption|apply files_kept_refl]].
    destruct (confirm_spec s _ d HD Ec) as [Er Hd].
    wstep. destruct (truthy_contents s d) eqn:Et.
    { wstep. split; [|apply files_kept_refl]. apply (pr_full s _ d Er). apply (truthy_spec s d Hd), Et. }
    assert (Hm : m <> []). { apply Forall_app in Ho. destruct Ho as [_ Ho]. inversion Ho as [|? ? K]. apply K. }
    apply wp_bind. destruct (rmdir_true s _ H Ho) as [E|[Ei E]]; unfold wp at 1; rewrite E.
    + pose proof (rmdir_gone s _ H NF HD Ho (Hnull _ [] (eq_sym (app_nil_r _)))) as K. unfold wp in K.
      pose proof (rmdir_pres (abs_path (sepc s) (names ++ [m])) false s H) as H1.
      destruct (rmdir (abs_path (sepc s) (names ++ [m])) false s) as [r s1] eqn:Erm. cbn [fst snd] in K, H1 |- *.
      destruct K as [(e & -> & ->)|(-> & pre & n' & d' & x & K & Hr & He & Hxd & OL)]; [split; [apply pr_fail, Erm|apply files_kept_refl]|].
      apply app_inj_tail in K. destruct K as [<- <-].
      pose proof (one_less_cfg _ _ _ _ _ OL) as Hc.
      assert (Hs : sepc s1 = sepc s) by (unfold sepc; rewrite Hc; reflexivity).
      wstep. cbv zeta. rewrite Hc.
      unfold sepc at 1 2. rewrite (splitpath_abs_path (f_cfg s) (linux_like_posix _ (gi_lin s H))) by exact Ho. cbn [fst snd]. fold (sepc s). rewrite <- Hs.
      eapply wp_conseq; [apply IH; [lia|exact Hm|exact H1|apply (one_less_null_free _ _ _ _ _ H OL NF)|apply (one_less_bits _ _ _ _ _ H OL HD)| |]|].
      * rewrite Hs. apply Forall_app in Ho. apply Ho.
      * intros a0 b0 Eab K. apply (one_less_null _ _ _ _ _ H OL) in K. revert K. apply (Hnull a0 (b0 ++ [m])). rewrite Eab, app_assoc. reflexivity.
      * intros r s' [P F]. split; [apply (pr_gone s names m d' x s1 r s' Hr OL He P)|].
        apply (files_kept_trans _ s1); [apply (one_less_files _ _ _ _ _ H OL He Hxd)|exact F].
    + cbn [fst snd]. wstep. cbv zeta. unfold sepc at 1 2. rewrite (splitpath_abs_path (f_cfg s) (linux_like_posix _ (gi_lin s H))) by exact Ho. cbn [fst snd]. fold (sepc s).
      destruct (proj1 (islink_iff s names m H Ho) Ei) as (d' & x & Hr' & Hrd & He & Hl).
      assert (Hd' : is_dirobj s d' = true) by (apply (entry_dirobj _ _ _ _ He)).
      destruct fuel as [|fuel]; [lia|]. cbn [removedirs_loop]. rewrite abs_nonempty. destruct m; [contradiction|]. cbn [nonempty andb].
      wstep. unfold confirmdir. rewrite Hr'. cbn [rbind]. rewrite (HD d'), Hd'. cbn [negb]. wstep.
      assert (Ht : truthy_contents s d' = true). { apply (truthy_spec s d' Hd'). intros K. unfold entry in He. rewrite K in He. discriminate. }
      rewrite Ht. wstep. split; [apply pr_link, Ei|apply files_kept_refl].
Qed.

Lemma length_abs sp names : Forall (ordinary sp) names -> length names <= length (abs_path sp names).
Proof.
  intros Ho. unfold abs_path. cbn [length]. induction names as [|a [|b l] IH]; cbn [length]; [lia| |].
  - lia.
  - inversion Ho as [|? ? Ha Hl]; subst. change (join_with [sp] (a :: b :: l)) with (a ++ sp :: join_with [sp] (b :: l)). rewrite app_length. cbn [length] in *. specialize (IH Hl). lia.
Qed.
Definition away_from_null (s : fs) (p : str) : Prop := forall names a b, names_of s p names -> names = a ++ b -> ~ is_null s a.

Theorem C71_removedirs : forall u c s, linux_like c -> proper_history u c s -> null_free s ->
  forall p, away_from_null s p -> forall r s', removedirs p s = (r, s') ->
  (* no directory was removed *)
  (s' = s /\ exists e, r = Err e) \/
  (* the leaf was removed, then empty directories above it *)
  exists pre n d x s1, names_of s p (pre ++ [n]) /\ resolve s (abs_path (sepc s) pre) false = Ok d /\
    ents s x = [] /\ (is_link s x = false -> is_dirobj s x = true) /\ one_less s s1 d n x /\ pruned s1 pre r s' /\ files_kept s s'.
Proof.
  intros u c s Hl HP NF p Hnull r s' E. destruct (reachable_GP c s Hl (proper_reachable _ _ _ HP)) as [H _].
  pose proof (proper_bits u c s HP : dir_bits s) as HD. pose proof (Ginv_good s H) as Hg.
  destruct (anp_names s p Hg) as (names & Hn & En).
  assert (W : wp (removedirs p) s (fun r s' => (s' = s /\ exists e, r = Err e) \/
    exists pre n d x s1, names_of s p (pre ++ [n]) /\ resolve s (abs_path (sepc s) pre) false = Ok d /\
    ents s x = [] /\ (is_link s x = false -> is_dirobj s x = true) /\ one_less s s1 d n x /\ pruned s1 pre r s' /\ files_kept s s')).
  2:{ apply (wp_elim _ _ _ _ _ W E). }
  unfold removedirs. wstep. wstep. rewrite En. wstep. destruct (confirmdir s (abs_path (sepc s) names)) as [d|e]; [|left; eauto].
  wstep. destruct (truthy_contents s d); [wstep; left; eauto|].
  apply wp_bind. apply wp_intro. intros r1 s1 Er.
  assert (Hnames : names <> [] -> names_of s p names) by (intros K; apply anp_cons_names_of; assumption).
  destruct (wp_elim _ _ _ _ _ (rmdir_gone s names H NF HD Hn ltac:(intros K; revert K; destruct names as [|w l]; [intros [K _]; apply K; reflexivity|]; apply (Hnull (w :: l) (w :: l) []); [apply Hnames; discriminate|rewrite app_nil_r; reflexivity])) Er)
    as [(e & -> & ->)|(-> & pre & n & d1 & x & -> & Hr & He & Hx & OL)]; [left; eauto|].
  pose proof (rmdir_pres (abs_path (sepc s) (pre ++ [n])) false s H) as H1. rewrite Er in H1. cbn [snd] in H1.
  pose proof (one_less_cfg _ _ _ _ _ OL) as Hc.
  assert (Hs : sepc s1 = sepc s) by (unfold sepc; rewrite Hc; reflexivity).
  assert (Hne : n <> []). { apply Forall_app in Hn. destruct Hn as [_ Hn]. inversion Hn as [|? ? K]. apply K. }
  cbv zeta. assert (Sp : splitpath (f_cfg s) (abs_path (sepc s) (pre ++ [n])) = (abs_path (sepc s) pre, n)) by (apply (splitpath_abs_path (f_cfg s) (linux_like_posix _ (gi_lin s H))); exact Hn). rewrite Sp. cbn [fst snd].
  assert (Hne2 : nonempty n = true) by (destruct n; [contradiction|reflexivity]). rewrite Hne2. cbn [fst snd]. rewrite <- Hs.
  specialize (Hnames ltac:(destruct pre; discriminate)).
  eapply wp_conseq; [apply loop_spec; [|exact Hne|exact H1|apply (one_less_null_free _ _ _ _ _ H OL NF)|apply (one_less_bits _ _ _ _ _ H OL HD)| |]|].
  - rewrite Hs. pose proof (length_abs _ _ Hn) as K. rewrite app_length in K. cbn [length] in K. lia.
  - rewrite Hs. apply Forall_app in Hn. apply Hn.
  - intros a b Eab K. apply (one_less_null _ _ _ _ _ H OL) in K. revert K. apply (Hnull _ a (b ++ [n]) Hnames). rewrite Eab, app_assoc. reflexivity.
  - intros r2 s2 [P F]. right. exists pre, n, d1, x, s1. split; [exact Hnames|]. split; [rewrite Hs; exact Hr|]. split; [exact He|]. split; [exact Hx|]. split; [exact OL|].
    split; [exact P|]. apply (files_kept_trans _ s1); [apply (one_less_files _ _ _ _ _ H OL He Hx)|exact F].
Qed.
Print Assumptions C71_removedirs.

(** ** What os.removedirs does not do as Python says *)
(** once the leaf is removed the call succeeds: false when the root directory
    is empty then (EBUSY) and when a directory above cannot be removed *)
Definition c71_ops : list op := [Makedirs (L "/a/b") 511 false].
Definition c71_state : fs := run (init posix_cfg None 18 0 0 0) c71_ops.
Theorem C71_last_directory_refuted : exists s, reachable posix_cfg s /\ is_root s = true /\
  (exists d, at_names s [L "a"; L "b"] = Some d) /\ fst (step (Removedirs (L "/a/b")) s) = os_err EBUSY /\
  at_names (snd (step (Removedirs (L "/a/b")) s)) [L "a"] = None.
Proof.
  exists c71_state. split; [exists None, 18%N, 0%Z, 0%Z, 0%Z, c71_ops; reflexivity|]. split; [vm_compute; reflexivity|].
  split; [exists 3; vm_compute; reflexivity|]. split; vm_compute; reflexivity.
Qed.
Definition c71_ops2 : list op := [Makedirs (L "/a/b/c") 511 false; Chmod (PStr (L "/a")) 365 true; SetUid 1].
Definition c71_state2 : fs := run (init posix_cfg None 18 0 0 0) c71_ops2.
Theorem C71_ancestor_refuted : exists s, reachable posix_cfg s /\
  (exists d, at_names s [L "a"; L "b"; L "c"] = Some d) /\ fst (step (Removedirs (L "/a/b/c")) s) = os_err EACCES /\
  at_names (snd (step (Removedirs (L "/a/b/c")) s)) [L "a"; L "b"; L "c"] = None.
Proof.
  exists c71_state2. split; [exists None, 18%N, 0%Z, 0%Z, 0%Z, c71_ops2; reflexivity|].
  split; [exists 4; vm_compute; reflexivity|]. split; vm_compute; reflexivity.
Qed.

(** ** The hypotheses are met: /d/e/x/y goes, and so do x and e, but d has a file *)
Definition c71_case_ops : list op := [Mkdir (L "/d") 511; CreateFile (L "/d/f") 33188 (Some (L "hi")) None true true; Makedirs (L "/d/e/x/y") 511 false; Symlink (L "e") (L "/d/l")].
Definition c71_case_state : fs := run (init posix_cfg None 18 0 0 0) c71_case_ops.
Lemma c71_proper : proper_history True posix_cfg c71_case_state.
Proof.
  exists None, 18%N, 0%Z, 0%Z, 0%Z, c71_case_ops. split; [reflexivity|]. split; [|reflexivity].
  repeat constructor; vm_compute; try reflexivity; intros K; discriminate K.
Qed.
Lemma c71_null_free : null_free c71_case_state.
Proof.
  apply null_free_intro; [apply (reachable_Ginv posix_cfg _ posix_cfg_linux (proper_reachable _ _ _ c71_proper))|vm_compute; reflexivity| |vm_compute; reflexivity].
  vm_compute. intuition discriminate.
Qed.
Example C71_case : away_from_null c71_case_state (L "/d/l/x/y") /\ fst (removedirs (L "/d/l/x/y") c71_case_state) = Ok tt /\
  fst (removedirs (L "/d/e/x/y") c71_case_state) = Ok tt /\
  listdir (snd (removedirs (L "/d/l/x/y") c71_case_state)) (PStr (L "/d")) = Ok [L "f"; L "e"; L "l"] /\
  listdir (snd (removedirs (L "/d/l/x/y") c71_case_state)) (PStr (L "/d/e")) = Ok [] /\
  listdir (snd (removedirs (L "/d/e/x/y") c71_case_state)) (PStr (L "/d")) = Ok [L "f"; L "l"].
Proof.
  split; [|repeat (split; [vm_compute; reflexivity|]); vm_compute; reflexivity].
  intros names a b Hn E [Hne K]. assert (En : names_of c71_case_state (L "/d/l/x/y") [L "d"; L "l"; L "x"; L "y"]) by (vm_compute; reflexivity).
  unfold names_of in Hn, En. rewrite En in Hn. apply (f_equal (@rev _)) in Hn. rewrite !rev_involutive in Hn. subst names.
  assert (Hd : hd_error (skipn 1 (devnull_name c71_case_state)) = hd_error (skipn 1 (L "/dev/null")) /\ nth_error (devnull_name c71_case_state) 2 = nth_error (L "/dev/null") 2) by (split; vm_compute; reflexivity).
  destruct Hd as [_ Hd]. rewrite <- K in Hd. assert (Hs : sepc c71_case_state = slash) by (vm_compute; reflexivity). rewrite Hs in Hd.
  destruct a as [|a0 a]; [contradiction|]. injection E as <- E2.
  destruct a as [|a1 a]; [vm_compute in Hd; discriminate Hd|]. change (nth_error (abs_path slash (L "d" :: a1 :: a)) 2) with (Some slash) in Hd. vm_compute in Hd. discriminate Hd.
Qed.
