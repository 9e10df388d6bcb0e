(** * Lookups in honest states: only OSError, and the question functions tell
    which calls work (C59, C60). *)
From Verif Require Export Honest WalkThm ResThm OpenThm.
From Coq Require Import List Bool ZArith Lia Ascii.
Import ListNotations.

Section T.
Variable s : fs.
Hypothesis HG : Ginv s.
Hypothesis HL : honest_links s.
Hypothesis HD : honest_dirs s.
Notation sp := (sepc s).
Let Hg : good s := Ginv_good s HG.
Let Hx := na_top s Hg HL HD.

Lemma nr_path p : resolve_path s p <> Err AttrErr.
Proof. apply (na_path s Hg HL _ p Hx). Qed.
Lemma nr_resolve p c : resolve s p c <> Err AttrErr.
Proof. apply (na_resolve s Hg HL HD _ p c Hx). Qed.
Lemma nr_lresolve p : lresolve s p <> Err AttrErr.
Proof. apply (na_lresolve s Hg HL HD _ p Hx). Qed.
Lemma nr_follow p f c : resolve_follow s p f c <> Err AttrErr.
Proof. unfold resolve_follow, resolve_any. destruct f; [apply nr_resolve|apply nr_lresolve]. Qed.
Lemma nr_exists p cl : exists_ s p cl <> Err AttrErr.
Proof. apply (na_exists s Hg HL HD _ p cl Hx). Qed.
Lemma nr_sep p o f m : raise_for_sep s p o f m <> Err AttrErr.
Proof. apply (na_sep s Hg HL HD _ p o f m Hx). Qed.

Lemma nr_walk check comps : forall d, (is_link s d = true -> exists t, text_contents s d = Ok t) ->
  norm_walk (fun t => resolve s t true) s check d comps <> Err AttrErr.
Proof.
  induction comps as [|n comps IH]; intros d Ht; cbn [norm_walk]; [discriminate|].
  assert (K : forall d', (let* t := Ok d' in if negb (S_ISDIR (o_mode (ob s t))) then os_err (if c_win (f_cfg s) then ENOENT else ENOTDIR)
     else match get_entry s t n with Err KeyErr => os_err ENOENT | Err e => Err e
       | Ok o => if negb (is_root s) && check && negb (has_bit (o_mode (ob s o)) PERM_READ) then os_err EACCES else norm_walk (fun t0 => resolve s t0 true) s check o comps end) <> Err AttrErr).
  { intros d'. cbn [rbind]. destruct (S_ISDIR (o_mode (ob s d'))) eqn:Ed; cbn [negb]; [|destruct (c_win _); discriminate].
    rewrite (get_entry_cs s d' n (ll_cs _ (gd_lin s Hg))), <- HD. unfold is_dirm. rewrite Ed.
    destruct (entry s d' n) as [o|] eqn:Ee; [|discriminate]. destruct (_ && _ && _); [discriminate|]. apply IH. apply (na_text s HL d' n o Ee). }
  destruct (S_ISLNK (o_mode (ob s d))) eqn:El; [|apply K].
  destruct (Ht El) as [t ->]. cbn [rbind]. pose proof (nr_resolve t true) as R.
  destruct (resolve s t true) as [d'|e]; [apply K|cbn [rbind]; congruence].
Qed.
Lemma nr_object p c : get_object s p c <> Err AttrErr.
Proof.
  unfold get_object, get_norm. destruct (str_eqb _ _); [discriminate|]. destruct (str_eqb _ _); [discriminate|]. apply nr_walk.
  rewrite (gd_dnl s Hg _ (gd_root s Hg)). discriminate.
Qed.
Lemma nr_stat p f : Pinv s -> stat s (PStr p) f <> Err AttrErr.
Proof.
  intros HP. unfold stat, stat_obj, resolve_arg. pose proof (nr_follow p f false) as K.
  destruct (resolve_follow s p f false) as [o|e]; cbn [rbind]; [|congruence].
  assert (K2 : (if negb (is_root s) then match o_parent (ob s o) with
      | Some d => let* pp := obj_path s d in let* _ := get_object s pp true in Ok tt | None => Ok tt end else Ok tt) <> Err AttrErr).
  { destruct (negb (is_root s)); [|discriminate]. destruct (o_parent (ob s o)) as [d|]; [|discriminate].
    destruct (obj_path_ok s d HG HP) as [q ->]. cbn [rbind]. pose proof (nr_object q true). destruct (get_object s q true); cbn [rbind]; congruence. }
  destruct (if negb (is_root s) then _ else _) as [u|e]; cbn [rbind]; [|congruence].
  pose proof (nr_sep p o f false). destruct (raise_for_sep s p o f false); cbn [rbind]; congruence.
Qed.
Hypothesis HB : forall o, has_bit (o_mode (ob s o)) S_IFDIR = is_dirobj s o.
Hypothesis HP : Pinv s.
Lemma confirm_dir p d : confirmdir s p = Ok d -> resolve s p true = Ok d /\ is_dirobj s d = true.
Proof.
  unfold confirmdir. destruct (resolve s p true) as [x|e]; cbn [rbind]; [|discriminate]. rewrite HB.
  destruct (is_dirobj s x) eqn:E; cbn [negb]; [|discriminate]. intros K. injection K as <-. split; [reflexivity|exact E].
Qed.
Lemma nr_confirm p : confirmdir s p <> Err AttrErr.
Proof.
  unfold confirmdir. pose proof (nr_resolve p true). destruct (resolve s p true); cbn [rbind]; [destruct (negb _); discriminate|congruence].
Qed.
Lemma nr_listdir p : listdir s (PStr p) <> Err AttrErr.
Proof.
  unfold listdir, resolve_path_arg. pose proof (nr_path p) as K. destruct (resolve_path s p) as [r|e]; cbn [rbind]; [|congruence].
  pose proof (nr_confirm r) as K2. destruct (confirmdir s r) as [d|e] eqn:E; cbn [rbind]; [|congruence].
  apply confirm_dir in E as [_ E]. unfold is_dirobj in E. destruct (o_body (ob s d)); discriminate.
Qed.
(** what a path leads to without following it: a directory, or an entry *)
Lemma lresolve_entry p o : lresolve s p = Ok o -> is_dirobj s o = true \/ exists d n, entry s d n = Some o.
Proof.
  unfold lresolve, lresolve_. destruct (str_eqb p []); [discriminate|]. destruct (str_eqb p [sp]).
  { intros K. injection K as <-. left. apply (gd_root s Hg). }
  destruct (splitpath _ _) as [h t]. set (h' := if str_eqb h [] then f_cwd s else h).
  destruct (resolve_ (exists_top s) s h' true) as [d|e'] eqn:Er; cbn [rbind]; [|discriminate].
  destruct (is_dirobj s d) eqn:Ed; cbn [negb]; [|destruct (c_win _); discriminate].
  destruct (has_bit _ _); cbn [negb]; [|discriminate]. destruct (str_eqb t []).
  { intros K. injection K as <-. left. exact Ed. }
  rewrite (get_entry_cs s d t (ll_cs _ (gd_lin s Hg))), Ed. destruct (entry s d t) as [x|] eqn:Ee; intros K; [|discriminate].
  injection K as <-. right. exists d, t. exact Ee.
Qed.
Lemma lresolve_text p o : lresolve s p = Ok o -> S_ISLNK (o_mode (ob s o)) = true -> exists t, text_contents s o = Ok t.
Proof.
  intros E L. destruct (lresolve_entry p o E) as [D|(d & n & K)]; [|apply (na_text s HL d n o K L)].
  pose proof (gd_dnl s Hg o D) as L2. unfold is_link in L2. rewrite L in L2. discriminate.
Qed.
Lemma nr_readlink p : readlink s p <> Err AttrErr.
Proof.
  unfold readlink. rewrite (ll_win _ (gd_lin s Hg)), (ll_mac _ (gd_lin s Hg)). pose proof (nr_lresolve p) as K.
  destruct (lresolve s p) as [o|e] eqn:E; cbn [rbind]; [|congruence].
  destruct (N.eqb _ _) eqn:El; cbn [negb andb]; [|discriminate]. destruct (lresolve_text p o E El) as [t Et]. rewrite Et.
  destruct (ends_with_path_separator _ _); [|discriminate].
  pose proof (nr_exists p false) as K1. destruct (exists_ s p false) as [[|]|e]; cbn [rbind]; [discriminate| |congruence].
  destruct (obj_path_ok s o HG HP) as [q ->]. cbn [rbind]. pose proof (nr_exists q false) as K2.
  destruct (exists_ s q false) as [[|]|e]; cbn [rbind negb]; [discriminate| |congruence].
  unfold is_circular_link. rewrite Et. cbn [rbind]. pose proof (nr_path t) as K3. destruct (resolve_path s t) as [r|[[]| | | | | | | | | |]]; cbn [rbind]; try discriminate; congruence.
Qed.
Lemma exists_total p cl : exists b, exists_ s p cl = Ok b.
Proof.
  pose proof (nr_exists p cl) as K. pose proof (lookup_ok_exists s HG p cl) as K2. destruct (exists_ s p cl) as [b|e]; [exists b; reflexivity|].
  rewrite (K2 e eq_refl) in K. congruence.
Qed.
Lemma na_walk_do td follow edit fuel : forall tm p, do_walk fuel s td follow edit tm p <> Err AttrErr.
Proof.
  induction fuel as [|fuel IH]; intros tm p; cbn [do_walk]; [discriminate|].
  assert (K1 : (if tm || follow then Ok false else islink s p) <> Err AttrErr).
  { destruct (tm || follow); [discriminate|]. destruct (type_total s p S_IFLNK false HG HL HD) as [b E]. unfold islink. rewrite E. discriminate. }
  destruct (if tm || follow then Ok false else islink s p) as [b|e]; cbn [rbind]; [|congruence]. destruct b; [discriminate|].
  assert (K2 : classify s p <> Err AttrErr).
  { unfold classify. pose proof (nr_listdir p) as K. destruct (listdir s (PStr p)) as [l|e]; cbn [rbind]; [|congruence]. clear K.
    induction l as [|n l IHl]; cbn [classify_names]; [discriminate|].
    destruct (type_total s (joinp s p n) S_IFDIR true HG HL HD) as [b E]. unfold isdir. rewrite E. cbn [rbind].
    destruct (classify_names s p l); cbn [rbind]; [discriminate|congruence]. }
  destruct (classify s p) as [[ds fs]|e].
  2:{ destruct e; try discriminate; congruence. }
  assert (K3 : forall l, walk_each (do_walk fuel s td follow edit false) s follow p l <> Err AttrErr).
  { induction l as [|n l IHl]; cbn [walk_each]; [discriminate|].
    assert (K : (if follow then Ok false else islink s (joinp s p n)) <> Err AttrErr).
    { destruct follow; [discriminate|]. destruct (type_total s (joinp s p n) S_IFLNK false HG HL HD) as [b E]. unfold islink. rewrite E. discriminate. }
    destruct (if follow then Ok false else islink s (joinp s p n)) as [b|e]; cbn [rbind]; [|congruence].
    assert (K4 : (if b then Ok [] else do_walk fuel s td follow edit false (joinp s p n)) <> Err AttrErr) by (destruct b; [discriminate|apply IH]).
    destruct (if b then Ok [] else do_walk fuel s td follow edit false (joinp s p n)) as [w|e]; cbn [rbind]; [|congruence].
    destruct (walk_each _ s follow p l); cbn [rbind]; [discriminate|congruence]. }
  specialize (K3 (if td then edit p ds fs else ds)). destruct (walk_each _ s follow p _); cbn [rbind]; [discriminate|congruence].
Qed.
Lemma walk_no_exn top td follow edit : (forall root ds fs, incl (edit root ds fs) ds) -> exists evs, walk s top td follow edit = Ok evs.
Proof.
  intros He. destruct (walk_total s top td follow edit HG HD He) as [K|K]; [exact K|]. contradiction (na_walk_do td follow edit _ _ _ K).
Qed.

(** ** The question functions *)
Lemma isdir_listdir p : isdir s p true = Ok true -> exists l, listdir s (PStr p) = Ok l.
Proof.
  intros E. destruct (isdir_arrives s HG HD p E) as (names & rr & d & HA). eexists. apply (listdir_arrives s HG p names rr d HA).
Qed.
Lemma exists_at p : p <> devnull_name s -> exists_ s p false = Ok true ->
  exists rr x, resolve_path s p = Ok (abs_path sp rr) /\ Forall (clean sp) rr /\ at_names s rr = Some x /\
    (is_null s rr \/ forall pre n l rest, ~ meets_link s rr pre n l rest).
Proof.
  intros Hp E. unfold exists_, exists_body in E. cbn [rbind] in E.
  destruct (str_eqb p []); [discriminate|]. destruct (str_eqb p (devnull_name s)) eqn:Ed; [apply str_eqb_eq in Ed; contradiction|].
  destruct (if ends_with_path_separator (f_cfg s) p then _ else Ok false) as [[|]|e]; cbn [rbind] in E; [discriminate| |destruct e; discriminate].
  fold (resolve_path s p) in E. destruct (resolve_path s p) as [r|e] eqn:Er; cbn [rbind] in E; [|destruct e; discriminate].
  destruct (resolve_path_shape s p r HG Er) as (rr & -> & Hc & Hn). exists rr.
  destruct (str_eqb (abs_path sp rr) [sp]) eqn:E0.
  - apply str_eqb_eq in E0. assert (rr = []).
    { destruct rr as [|w rr]; [reflexivity|]. exfalso. inversion Hc as [|? ? [Hw Hw2] ?]; subst. unfold abs_path in E0. injection E0 as E0.
      destruct w; [contradiction|]. destruct rr; discriminate E0. }
    subst rr. exists root_oid. split; [reflexivity|]. split; [exact Hc|]. split; [reflexivity|]. exact Hn.
  - injection E as E. rewrite (path_components_clean (f_cfg s) (gi_lin s HG) rr Hc), (exists_walk_tree s Hg) in E.
    destruct (tree_at s root_oid rr) as [x|] eqn:Ex; [|discriminate]. exists x. split; [reflexivity|]. split; [exact Hc|]. split; [exact Ex|exact Hn].
Qed.

Lemma walk_in_tree check rl rr : is_root s = true -> forall d x, tree_at s d rr = Some x -> norm_walk rl s check d rr = Ok x.
Proof.
  intros Hr. induction rr as [|n rr IH]; intros d x E; cbn [norm_walk]; [cbn [tree_at] in E; congruence|].
  pose proof (tree_at_dirobj s d n rr x E) as Ed. pose proof (gd_dnl s Hg d Ed) as El. unfold is_link in El. rewrite El. cbn [rbind].
  pose proof (HD d) as Em. rewrite Ed in Em. unfold is_dirm in Em. rewrite Em. cbn [negb].
  rewrite (get_entry_cs s d n (ll_cs _ (gd_lin s Hg))), Ed. cbn [tree_at] in E. destruct (entry s d n) as [o|]; [|discriminate].
  rewrite Hr. cbn [negb andb]. apply IH, E.
Qed.
Lemma exists_resolve p c : is_root s = true -> p <> devnull_name s -> exists_ s p false = Ok true -> exists o, resolve s p c = Ok o.
Proof.
  intros Hr Hp E. destruct (exists_at p Hp E) as (rr & x & Ep & Hc & Ex & _).
  unfold resolve, resolve_. fold (resolve_path s p). rewrite Ep. cbn [rbind]. unfold get_norm.
  destruct (str_eqb _ _); [eexists; reflexivity|]. destruct (str_eqb _ _); [eexists; reflexivity|].
  exists x. unfold original_path. rewrite (ll_cs _ (gd_lin s Hg)). cbn [orb]. rewrite (path_components_clean (f_cfg s) (gi_lin s HG) rr Hc).
  apply walk_in_tree; assumption.
Qed.
Lemma exists_stat p : is_root s = true -> p <> devnull_name s -> resolve_path s p <> Ok (devnull_name s) ->
  ends_with_path_separator (f_cfg s) p = false ->
  (exists_ s p false = Ok true <-> exists st, stat s (PStr p) true = Ok st).
Proof.
  intros Hr Hp Hn Hs. split.
  - intros E. destruct (exists_resolve p false Hr Hp E) as [o Eo]. unfold stat, stat_obj, resolve_arg, resolve_follow, resolve_any.
    fold (resolve s p false). rewrite Eo. cbn [rbind]. rewrite Hr. cbn [negb rbind]. unfold raise_for_sep, raise_for_sep_. rewrite Hs. cbn [rbind]. eexists. reflexivity.
  - intros [st E]. unfold stat, stat_obj, resolve_arg, resolve_follow, resolve_any in E. fold (resolve s p false) in E.
    destruct (resolve s p false) as [o|e] eqn:Eo; cbn [rbind] in E; [|discriminate].
    apply (found_exists s p false o HG Eo Hn). unfold raise_for_sep, raise_for_sep_. rewrite Hs. reflexivity.
Qed.
Lemma listdir_isdir p : p <> devnull_name s -> resolve_path s p <> Ok (devnull_name s) -> exists_ s p false = Ok true ->
  (exists l, listdir s (PStr p) = Ok l) -> isdir s p true = Ok true.
Proof.
  intros Hp Hn E [l El]. destruct (exists_at p Hp E) as (rr & x & Ep & Hc & Ex & _).
  unfold listdir, resolve_path_arg in El. rewrite Ep in El. cbn [rbind] in El.
  destruct (confirmdir s (abs_path sp rr)) as [d|e] eqn:Ed; cbn [rbind] in El; [|discriminate].
  apply confirm_dir in Ed as [Er Ed].
  assert (Hnr : abs_path sp rr <> devnull_name s) by (intros K; rewrite K in Ep; contradiction).
  destruct (resolve_path_stable s p _ rr x HG Ep eq_refl Hc Hnr Ex) as [_ Est].
  assert (Erp : resolve s p true = Ok d).
  { unfold resolve, resolve_ in *. fold (resolve_path s p). fold (resolve_path s (abs_path sp rr)) in Er. rewrite Est in Er. rewrite Ep. exact Er. }
  unfold isdir, is_of_type, is_of_type_, resolve_any. fold (resolve s p true). rewrite Erp. cbn [rbind].
  pose proof (HD d) as Hm. rewrite Ed in Hm. unfold is_dirm in Hm. pose proof (gd_dnl s Hg d Ed) as El2. unfold is_link in El2.
  assert (Kr : raise_for_sep_ (exists_top s) s p d true (negb true) = Ok tt).
  { unfold raise_for_sep_. rewrite El2, (ll_win _ (gd_lin s Hg)), Hm. destruct (ends_with_path_separator _ _); [|reflexivity]. rewrite andb_false_r. reflexivity. }
  rewrite Kr. cbn [rbind]. unfold S_ISDIR in Hm. rewrite Hm. reflexivity.
Qed.
Lemma islink_readlink p : ends_with_path_separator (f_cfg s) p = false ->
  (islink s p = Ok true <-> exists t, readlink s p = Ok t).
Proof.
  intros Hs. unfold islink, is_of_type, is_of_type_, resolve_any, readlink. fold (lresolve s p). rewrite Hs.
  destruct (lresolve s p) as [o|e] eqn:E; cbn [rbind].
  - unfold raise_for_sep_. rewrite Hs. cbn [rbind]. split.
    + intros K. injection K as K. destruct (lresolve_text p o E K) as [t Et]. exists t. rewrite K. exact Et.
    + intros [t K]. destruct (N.eqb _ _); [reflexivity|discriminate].
  - split; [destruct e; discriminate|intros [t K]; discriminate].
Qed.
Lemma isfile_opens p b : is_root s = true -> p <> devnull_name s -> resolve_path s p <> Ok (devnull_name s) ->
  isfile s p true = Ok true -> exists w, fst (open_ (PStr p) (L "rb") b true s) = Ok w.
Proof.
  intros Hr Hp Hn E. pose proof (type_exists s p S_IFREG HG E Hn) as Ex.
  unfold isfile, is_of_type, is_of_type_, resolve_any in E. fold (resolve s p true) in E.
  destruct (resolve s p true) as [o|e] eqn:Er; cbn [rbind] in E; [|destruct e; discriminate].
  destruct (raise_for_sep_ (exists_top s) s p o true (negb true)) as [u|e]; cbn [rbind] in E; [|destruct e; discriminate].
  assert (Hreg : S_IFMT (o_mode (ob s o)) = S_IFREG) by (injection E as E; apply N.eqb_eq, E). clear E.
  assert (Hm : S_ISDIR (o_mode (ob s o)) = false) by (unfold S_ISDIR; rewrite Hreg; reflexivity).
  assert (Ho : is_dirobj s o = false) by (rewrite <- HD; exact Hm).
  apply (resolve_true_false s p o Hg) in Er.
  replace (open_ (PStr p) (L "rb") b true) with (open_call (PStr p) (mkom true true false false false false) b true false false) by (unfold open_; cbn; reflexivity).
  rewrite (open_call_str _ _ _ _ _ _ _ Hp).
  destruct (resolve_path s p) as [rp|e] eqn:Ep; [|unfold resolve, resolve_ in Er; fold (resolve_path s p) in Er; rewrite Ep in Er; discriminate].
  rewrite Ex. rewrite (proj2 (get_norm_resolve _ s p rp o HG Ep) Er).
  unfold open_obj, open_end, init_file_object, bind, gets, ret, raise_os, when. cbn [fst snd om_must_not_exist om_write om_trunc andb]. rewrite Hr. cbn [negb andb].
  rewrite Hm, Ho. cbn [fst snd]. unfold add_wrap, bind, alloc_wrap, add_open_file, wmod, modify, ret. cbn [fst snd].
  destruct (f_free _); eexists; reflexivity.
Qed.
End T.

Lemma proper_bits u c s : proper_history u c s -> forall o, has_bit (o_mode (ob s o)) S_IFDIR = is_dirobj s o.
Proof. intros H o. apply proper_H in H. destruct (hs_ok _ _ _ _ H o) as [_ A]. exact A. Qed.
