(** * C17 (continued): create_file and create_symlink that make missing
    directories (the default of both calls).

    [parents s s1 pre]: [s1] is [s] with the missing directories of the path
    [pre] made, all with mode 0o777: an existing directory [d] got one entry,
    the first of a chain of new directories, and nothing else changed
    ([dirs_made], FsSpec.v). *)
From Verif Require Import SysModel FsSpec OpsThm6 PropTree PropOps.

Definition parents (s s1 : fs) (pre : list str) : Prop :=
  s1 = s \/
  exists a n rest d, pre = a ++ n :: rest /\ is_dirobj s d = true /\
    dirs_made s s1 d (n :: rest) (N.lor S_IFDIR PERM_DEF) /\
    ((forall x m l y, ~ meets_link s pre x m l y) -> at_names s a = Some d).

Lemma dirs_made_ext s s' d n rest m : Ginv s -> is_dirobj s d = true -> dirs_made s s' d (n :: rest) m -> ext s s'.
Proof.
  intros H Hd DM. destruct (dm_top _ _ _ _ _ DM n rest eq_refl) as [_ D]. assert (R := dm_rest _ _ _ _ _ DM).
  assert (X := dm_old _ _ _ _ _ DM).
  assert (Hlt : forall names x, at_names s names = Some x -> x < f_next s) by (intros names x; apply (at_names_lt s names x H)).
  constructor.
  - rewrite R. reflexivity.
  - rewrite R. reflexivity.
  - rewrite R. reflexivity.
  - unfold devnull_name. rewrite X; [reflexivity| |].
    + pose proof (gi_next s H). unfold devnull_oid. lia.
    + intros K. pose proof (gi_null s H) as Hz. unfold devnull_oid in *. rewrite K in Hz. congruence.
  - intros e k o K. apply (dirs_made_entry_old s s' d n rest m e k o H DM K).
  - intros names x K. destruct (Nat.eq_dec x d) as [->|Ne]; [rewrite D; reflexivity|]. rewrite X; [reflexivity|apply (Hlt names x K)|exact Ne].
  - intros names x data K Eb. destruct (Nat.eq_dec x d) as [->|Ne].
    + unfold is_dirobj in Hd. rewrite Eb in Hd. discriminate.
    + rewrite X; [exact Eb|apply (Hlt names x K)|exact Ne].
Qed.
Lemma ext_still s s' : Ginv s -> Ginv s' -> ext s s' -> still_there s s'.
Proof.
  intros H H' X q c x E Hx. split; [apply (ext_resolve s s' (Ginv_good s H) (Ginv_good s' H') X q c x Hx E)|].
  destruct (resolve_in_tree s q c x H E Hx) as (rr & Hr).
  split; [apply (ex_mode s s' X rr x Hr)|]. intros data. apply (ex_file s s' X rr x data Hr).
Qed.
Lemma still_trans a b c : still_there a b -> still_there b c -> still_there a c.
Proof.
  intros A B q k x E Hx. destruct (A q k x E Hx) as (A1 & A2 & A3). destruct (B q k x A1 Hx) as (B1 & B2 & B3).
  split; [exact B1|]. split; [congruence|]. auto.
Qed.

Lemma lookup_new s s' d pre n o : Ginv s -> Ginv s' -> ext s s' -> one_more s s' d n o -> d <> o ->
  Forall (ordinary (sepc s)) (pre ++ [n]) -> resolve s (abs_path (sepc s) pre) true = Ok d -> is_dirm s d = true ->
  abs_path (sepc s) (pre ++ [n]) <> devnull_name s ->
  is_link s' o = false -> ~ null_clash s d n ->
  resolve s' (abs_path (sepc s) (pre ++ [n])) false = Ok o.
Proof.
  intros H H' X OM Hdo Hn Hr Hdm Hex Hl Hnc. destruct (ordinary_last _ _ _ Hn) as [Hpre Hno].
  assert (Ec : f_cfg s' = f_cfg s) by (symmetry; apply X).
  assert (Hd0 : d <> devnull_oid).
  { intros ->. pose proof (om_isdir _ _ _ _ _ OM) as K. rewrite (gi_null s H) in K. discriminate. }
  assert (Edn : devnull_name s' = devnull_name s) by (symmetry; apply X).
  assert (Hr' : resolve s' (abs_path (sepc s) pre) false = Ok d).
  { apply resolve_true_false; [apply Ginv_good, H'|]. apply (ext_resolve s s' (Ginv_good s H) (Ginv_good s' H') X); assumption. }
  assert (Hnn : forall ns, is_null s' ns -> is_null s ns) by (intros ns [A B]; split; [exact A|rewrite Ec, Edn in B; exact B]).
  rewrite <- Ec. apply (resolve_snoc s' pre n d o H').
  - rewrite Ec. exact Hpre.
  - intros K. apply Hnn in K. unfold resolve in Hr. apply (resolve_ok s (Ginv_good s H)) in Hr.
    destruct Hr as (rr & E & Hc & [[K2 ->]|(K2 & _)]); [congruence|]. 
    apply (rp_names s H pre rr Hpre Hc) in E. destruct E as [_ [[_ ->]|[K3 _]]]; contradiction.
  - rewrite Ec. exact Hr'.
  - exact Hd0.
  - unfold is_dirm. rewrite (om_dir _ _ _ _ _ OM). exact Hdm.
  - unfold entry, ents. rewrite (om_dir _ _ _ _ _ OM). cbn. rewrite assoc_app. pose proof (om_was _ _ _ _ _ OM) as K. unfold entry in K. rewrite K. cbn. rewrite str_eqb_refl. reflexivity.
  - exact Hl.
  - intros K. apply Hnn in K. destruct K as [_ K]. apply Hex. exact K.
  - intros rr Hcr E K. apply Hnn in K. apply Hnc. exists rr. split; [|exact K].
    (* where pre led before *)
    unfold resolve in Hr. apply (resolve_ok s (Ginv_good s H)) in Hr. destruct Hr as (r0 & E0 & Hc0 & [[_ K0]|(_ & Hat & _)]); [congruence|].
    assert (E1 := ext_resolve_path s s' (Ginv_good s H) (Ginv_good s' H') X _ r0 d E0 Hc0 Hat).
    rewrite Ec in E. fold (resolve_path s' (abs_path (sepc s) pre)) in E1. rewrite E in E1.
    rewrite Ec in Hcr.
    assert (E2 : abs_path (sepc s) rr = abs_path (sepc s) r0) by congruence.
    assert (rr = r0) by (apply (abs_path_clean_inj (f_cfg s) (gi_lin s H)); assumption). subst rr. exact Hat.
Qed.

(** creating the missing directories of [pre] *)
Lemma wp_parents s pre : Ginv s -> within_limits s -> sepc s = slash -> Forall (ordinary (sepc s)) pre ->
  wp (create_dir (abs_path (sepc s) pre) PERM_DEF) s (fun r s' =>
    Ginv s' /\ within_limits s' /\ f_mounts s' = f_mounts s /\ f_cfg s' = f_cfg s /\ f_umask s' = f_umask s /\ devnull_name s' = devnull_name s /\
    ((exists e, r = Err e /\ unseen s s') \/ ((exists o, r = Ok o) /\ parents s s' pre /\ ext s s'))).
Proof.
  intros H W Hsl Ho.
  assert (Hi := create_dir_pres (abs_path (sepc s) pre) PERM_DEF s H).
  pose proof (wp_create_dir s (abs_path (sepc s) pre) PERM_DEF H W) as K. unfold wp in K |- *.
  destruct (create_dir (abs_path (sepc s) pre) PERM_DEF s) as [r s'] eqn:E. cbn [fst snd] in *.
  assert (Hm : make_string_path (f_cfg s) (abs_path (sepc s) pre) = abs_path (sepc s) pre) by (apply make_string_path_slash; exact Hsl).
  rewrite Hm, (anp_abs_path s pre (Ginv_good s H) Ho) in K.
  destruct K as [(e & -> & U & M)|(names & a & b & d & Ea & Fn & _ & En & DW & K)].
  - split; [exact Hi|]. assert (W' : within_limits s') by (intros k m t; rewrite M; apply W).
    split; [exact W'|]. split; [exact M|]. assert (R := un_state _ _ U). split; [rewrite R; reflexivity|]. split; [rewrite R; reflexivity|].
    split; [unfold devnull_name; rewrite (un_old _ _ U); [reflexivity|pose proof (gi_next s H); unfold devnull_oid; lia]|]. left. eauto.
  - assert (Enp : pre = names) by (eapply (abs_path_inj (f_cfg s)); first [eassumption|congruence|apply Forall_clean; eassumption|apply linux_like_posix, (gi_lin s H)]).
    rewrite <- Enp in En. clear Enp Fn Ea names. destruct K as [(Hb & -> & ->)|(n & rest & -> & -> & Hd & DM)].
    + split; [exact Hi|]. split; [exact W|]. do 4 (split; [reflexivity|]). right. split; [eauto|]. split; [left; reflexivity|].
      constructor; auto.
    + split; [exact Hi|]. assert (R := dm_rest _ _ _ _ _ DM). assert (X := dirs_made_ext s s' d n rest _ H Hd DM).
      assert (M : f_mounts s' = f_mounts s) by (rewrite R; reflexivity).
      split; [intros k m t; rewrite M; apply W|]. split; [exact M|]. split; [rewrite R; reflexivity|]. split; [rewrite R; reflexivity|].
      split; [symmetry; apply X|]. right. split; [eauto|]. split; [|exact X]. right. exists a, n, rest, d. split; [exact En|]. split; [exact Hd|]. split; [exact DM|].
      intros Hlf. apply (dir_walk_tree s root_oid a d DW). intros x m l y -> Hl. destruct (is_link s l) eqn:El; [|reflexivity]. exfalso.
      apply (Hlf x m l (y ++ n :: rest)). split; [rewrite En, <- app_assoc; reflexivity|]. split; assumption.
Qed.

(** [made s s' pre n d o mode c sz]: the missing directories of [pre] and then
    the file *)
Definition made (s s' : fs) (p : str) (o : oid) (mode : N) (c : option str) (sz : option Z) : Prop :=
  exists s1 pre n d, names_of s p (pre ++ [n]) /\ parents s s1 pre /\ resolve s1 (abs_path (sepc s) pre) true = Ok d /\
    one_more s1 s' d n o /\ brand_new s1 s' d o /\ o_mode (ob s' o) = mode /\
    o_body (ob s' o) = BFile (file_data c sz) /\ o_size (ob s' o) = file_size c sz /\ o_nlink (ob s' o) = 1%Z /\
    (is_link s' o = false -> ~ null_clash s1 d n -> resolve s' (abs_path (sepc s) (pre ++ [n])) false = Ok o) /\
    Ginv s1 /\ ext s s1.

Lemma wp_make s p mode c sz um : Ginv s -> within_limits s -> sepc s = slash ->
  wp (create_file_internally p mode c sz true um) s (fun r s' =>
    (exists e s1, r = Err e /\ (unseen s s1 \/ exists pre, parents s s1 pre) /\
       (unseen s1 s' \/ (e = OSErr EACCES /\ is_root s = false))) \/
    (exists o, r = Ok o /\ made s s' p o (if um then N.ldiff mode (f_umask s) else mode) c sz /\ still_there s s')).
Proof.
  intros H W Hsl. pose proof (Ginv_good s H) as Hg.
  pose proof (create_file_internally_inv s p mode c sz true um H) as Hi.
  assert (Hm : make_string_path (f_cfg s) p = p) by (apply make_string_path_slash; exact Hsl).
  assert (G : wp (create_file_internally p mode c sz true um) s (fun r s' => Ginv s' ->
    (exists e s1, r = Err e /\ (unseen s s1 \/ exists pre, parents s s1 pre) /\
       (unseen s1 s' \/ (e = OSErr EACCES /\ is_root s = false))) \/
    (exists o, r = Ok o /\ made s s' p o (if um then N.ldiff mode (f_umask s) else mode) c sz /\ still_there s s'))).
  2:{ unfold wp in *. auto. }
  assert (Hself : forall (e : exn), exists e0 s1, @Err oid e = Err e0 /\ (unseen s s1 \/ exists pre, parents s s1 pre) /\
       (unseen s1 s \/ (e0 = OSErr EACCES /\ is_root s = false))).
  { intros e. exists e, s. split; [reflexivity|]. split; left; apply unseen_refl. }
  unfold create_file_internally. wstep. rewrite Hm.
  destruct (anp_names s p Hg) as (names & Hn & En). rewrite En.
  wstep. destruct (exists_ s (abs_path (sepc s) names) true) as [[|]|e] eqn:Ee; [wstep; intros; left; apply Hself| |intros; left; apply Hself].
  destruct (names_cases names) as [->|(pre & n & ->)]; [rewrite (exists_root s true H) in Ee; discriminate|].
  destruct (ordinary_last _ _ _ Hn) as [Hpre Hno].
  wstep. rewrite (splitpath_abs_path _ (linux_like_posix _ (gi_lin s H)) _ _ Hn). cbn [fst snd].
  wstep. change (str_eqb (abs_path (sepc s) pre) []) with false. cbv iota.
  apply wp_bind. unfold auto_mount_drive, auto_mount. wstep. rewrite (Ginv_win s H). wstep. cbv beta iota.
  assert (Hnm : names_of s p (pre ++ [n])) by (apply anp_cons_names_of; [exact Hg|destruct pre; discriminate|exact Hn|exact En]).
  assert (Fin : forall s1 r s', Ginv s1 -> Ginv s' -> f_cfg s1 = f_cfg s -> devnull_name s1 = devnull_name s -> f_uid s1 = f_uid s -> parents s s1 pre -> ext s s1 ->
    ((unseen s1 s' /\ f_mounts s' = f_mounts s1 /\ exists e, r = Err e /\ fst (add_object (abs_path (sepc s) pre) (f_next s1) (snd (alloc n (if um then N.ldiff mode (f_umask s) else mode) (BFile None) s1))) = Err e) \/
       (exists d, resolve s1 (abs_path (sepc s) pre) true = Ok d /\ is_dirm s1 d = true /\
          (file_made s1 s' d n (if um then N.ldiff mode (f_umask s) else mode) c sz r \/
          (unseen s1 s' /\ r = Err (OSErr ENOSPC) /\ no_space s1 d (file_size c sz)) \/
          (r = Err (OSErr EACCES) /\ is_root s1 = false /\ no_space s1 d (file_size c sz) /\ one_more s1 s' d n (f_next s1))))) ->
    (exists e s1, r = Err e /\ (unseen s s1 \/ exists pre, parents s s1 pre) /\
       (unseen s1 s' \/ (e = OSErr EACCES /\ is_root s = false))) \/
    (exists o, r = Ok o /\ made s s' p o (if um then N.ldiff mode (f_umask s) else mode) c sz /\ still_there s s')).
  { intros s1 r s' H1 H' Ec Edn Eu P X [(U & _ & e & -> & _)|(d & Hr & Hdm & [F|[(U & -> & _)|(-> & Hrt & _)]])].
    - left. exists e, s1. split; [reflexivity|]. split; [right; eauto|left; exact U].
    - right. pose proof (file_made_ok s1 s' d n _ c sz _ H1 F) as Hdo.
      destruct F as (-> & OM & BN & Hmo & Hb & Hz & Hnl & _ & _). exists (f_next s1). split; [reflexivity|]. split.
      + exists s1, pre, n, d. do 9 (split; [assumption|]). split; [|split; assumption]. intros Hlk Hnc.
        rewrite <- Ec. rewrite <- Ec in Hn, Hpre, Hr.
        assert (Hd0 : d <> devnull_oid).
        { intros ->. pose proof (om_isdir _ _ _ _ _ OM) as K. rewrite (gi_null s1 H1) in K. discriminate. }
        (* the null device *)
        assert (Hex : abs_path (sepc s1) (pre ++ [n]) <> devnull_name s1).
        { rewrite Ec, Edn. intros K. apply (exists_true_null s _ K); [discriminate|exact Ee]. }
        apply (lookup_new s1 s' d pre n (f_next s1) H1 H' (one_more_new_ext s1 s' d n H1 OM) OM Hdo Hn Hr Hdm Hex Hlk Hnc).
      + apply (still_trans s s1 s'); [apply ext_still; assumption|]. apply (one_more_still s1 s' d n (f_next s1) H1 H'); [|exact OM].
        apply (one_more_new_ext s1 s' d n H1 OM).
    - left. eexists _, s1. split; [reflexivity|]. split; [right; eauto|left; exact U].
    - left. eexists _, s1. split; [reflexivity|]. split; [right; eauto|right]. split; [reflexivity|]. unfold is_root in *. rewrite <- Eu. exact Hrt. }
  wstep. destruct (exists_ s (abs_path (sepc s) pre) false) as [pe|e]; [|intros; left; apply Hself]. apply wp_bind.
  destruct pe; cbn [negb].
  - wstep. cbv beta iota. rewrite (original_path_cs s _ (Ginv_cs s H)). wstep.
    eapply wp_conseq; [apply (wp_new_file_in s _ _ pre n _ c sz H W Hn); reflexivity|]. cbv beta.
    intros r s' K H'. apply (Fin s r s' H H' eq_refl eq_refl eq_refl); [left; reflexivity|constructor; auto|exact K].
  - apply wp_bind. eapply wp_conseq; [apply (wp_parents s pre H W Hsl Hpre)|]. cbv beta.
    intros r1 s1 (H1 & W1 & M1 & C1 & U1 & D1 & [(e & -> & K)|((o1 & ->) & P & X)]); cbv beta iota.
    + intros _. left. exists e, s1. split; [reflexivity|]. split; [left; exact K|left; apply unseen_refl].
    + wstep. cbv beta iota. wstep. rewrite U1.
      eapply wp_conseq; [apply (wp_new_file_in s1 _ _ pre n _ c sz H1 W1); rewrite ?C1; [exact Hn|reflexivity..]|]. cbv beta.
      intros r s' K H'. apply (Fin s1 r s' H1 H' C1 D1); [symmetry; apply X|assumption..].
Qed.

Theorem C17_create_file_missing : forall c s, linux_like c -> reachable c s -> within_limits s -> c_sep c = slash ->
  forall p mode data um o s',
  create_file p mode (Some data) None true um s = (Ok o, s') ->
  exists s1 pre n d, names_of s p (pre ++ [n]) /\
    (* first the missing directories of the path are made, and nothing else *)
    parents s s1 pre /\
    (* then the path leads to a directory, which gets one new entry *)
    resolve s1 (abs_path (sepc s) pre) true = Ok d /\ one_more s1 s' d n o /\ brand_new s1 s' d o /\
    o_mode (ob s' o) = (if um then N.ldiff mode (f_umask s) else mode) /\
    o_body (ob s' o) = BFile (Some data) /\ ss_size (stat_of s' o) = Z.of_nat (length data) /\ ss_nlink (stat_of s' o) = 1%Z /\
    (is_link s' o = false -> ~ null_clash s1 d n -> resolve s' (abs_path (sepc s) (pre ++ [n])) false = Ok o) /\
    still_there s s'.
Proof.
  intros c s Hl Hr W Hs p mode data um o s' E. destruct (reachable_GP c s Hl Hr) as [H _].
  assert (H' : Ginv s') by (pose proof (create_file_pres p mode (Some data) None true um s H) as K; rewrite E in K; exact K).
  assert (Hsp : sepc s = slash) by (rewrite (reachable_cfg c s Hr); exact Hs).
  pose proof (wp_elim _ _ _ _ _ (wp_make s p mode (Some data) None um H W Hsp) E) as K. cbv beta in K.
  destruct K as [(e & s1 & K & _)|(o' & K & (s1 & pre & n & d & K1 & K2 & K3 & K4 & K5 & K6 & K7 & K8 & K9 & K10 & _) & St)]; [discriminate|].
  injection K as <-. exists s1, pre, n, d. do 7 (split; [assumption|]).
  split; [cbn [stat_of ss_size]; unfold st_size; rewrite (Ginv_win s' H'); exact K8|]. split; [exact K9|]. split; assumption.
Qed.
Print Assumptions C17_create_file_missing.
(** if it raises, at most directories were made (a user who is not root may
    also leave an empty file behind: C53_full_disk_refuted) *)
Theorem C17_failed_create_missing : forall c s, linux_like c -> reachable c s -> within_limits s -> c_sep c = slash ->
  forall p mode data um e s',
  create_file p mode (Some data) None true um s = (Err e, s') -> is_root s = true ->
  exists s1, (unseen s s1 \/ exists pre, parents s s1 pre) /\ unseen s1 s'.
Proof.
  intros c s Hl Hr W Hs p mode data um e s' E Hrt. destruct (reachable_GP c s Hl Hr) as [H _].
  assert (Hsp : sepc s = slash) by (rewrite (reachable_cfg c s Hr); exact Hs).
  pose proof (wp_elim _ _ _ _ _ (wp_make s p mode (Some data) None um H W Hsp) E) as K. cbv beta in K.
  destruct K as [(e' & s1 & K & K1 & [K2|[_ K2]])|(o' & K & _)]; [eauto|congruence|discriminate].
Qed.
Print Assumptions C17_failed_create_missing.
Definition c17b_call := create_file (L "/d/e/a/b/new") 33188 (Some (L "abc")) None true true.
Example C17_missing_case : fst (c17b_call tree_state) = Ok 8 /\ within_limits tree_state /\
  listdir (snd (c17b_call tree_state)) (PStr (L "/d/e/a/b")) = Ok [L "new"].
Proof. split; [vm_compute; reflexivity|]. split; [exact tree_state_limits|vm_compute; reflexivity]. Qed.

(** a relative link on the way: the missing directories are looked for from the
    current directory instead of the directory of the link *)
Definition c17r_ops : list op := [Mkdir (L "/d") 511; Mkdir (L "/d/e") 511; Symlink (L "e") (L "/d/l")].
Definition c17r_state : fs := run (init posix_cfg None 18 0 0 0) c17r_ops.
Theorem C32_create_file_refuted : exists s, reachable posix_cfg s /\ isdir s (L "/d/l") true = Ok true /\
  fst (create_file (L "/d/l/f") 33188 (Some []) None true true s) = Ok 5 /\
  fst (create_file (L "/d/l/x/f") 33188 (Some []) None true true s) = os_err ENOENT.
Proof.
  exists c17r_state. split; [exists None, 18%N, 0%Z, 0%Z, 0%Z, c17r_ops; reflexivity|].
  split; [vm_compute; reflexivity|]. split; vm_compute; reflexivity.
Qed.

(** ** C32 (continued): fs.create_dir makes all missing directories of a path,
    and only these, with the mode given; the umask does not count *)
Theorem C32_create_dir_partial : forall c s, linux_like c -> reachable c s -> within_limits s -> c_sep c = slash ->
  forall p names, p <> [] -> names_of s p names -> (forall pre n l rest, ~ meets_link s names pre n l rest) ->
  forall perm r s', create_dir p perm s = (r, s') ->
  (exists e, r = Err e /\ unseen s s' /\ f_mounts s' = f_mounts s) \/
  (exists o a n rest d, r = Ok o /\ names = a ++ n :: rest /\ at_names s a = Some d /\
     dirs_made s s' d (n :: rest) (N.lor S_IFDIR perm) /\ at_names s' names = Some o /\ is_dirobj s' o = true /\ still_there s s').
Proof.
  intros c s Hl Hr W Hs p names Hp Hn Hlf perm r s' E. destruct (reachable_GP c s Hl Hr) as [H _].
  assert (Hsp : sepc s = slash) by (rewrite (reachable_cfg c s Hr); exact Hs).
  destruct (names_of_anp s p names (Ginv_good s H) Hp Hn) as [Fo Eo].
  assert (H' : Ginv s') by (pose proof (create_dir_pres p perm s H) as K; rewrite E in K; exact K).
  assert (Hm : make_string_path (f_cfg s) p = p) by (apply make_string_path_slash; exact Hsp).
  rewrite <- Hm in Eo.
  pose proof (wp_elim _ _ _ _ _ (create_dir_spec s p perm names H W Eo Fo Hlf) E) as K. cbv beta in K.
  destruct K as [K|(a & n & rest & d & En & Ha & Hd & -> & DM)]; [left; exact K|right].
  destruct (dirs_made_at s s' d n rest _ a H Hd Ha DM) as [K1 K2].
  destruct (K2 (length rest) (le_n _)) as (K3 & K4 & _). rewrite firstn_all, <- En in K3.
  exists (f_next s + length rest), a, n, rest, d. do 6 (split; [first [reflexivity|assumption]|]).
  apply ext_still; [exact H|exact H'|]. apply (dirs_made_ext s s' d n rest _ H Hd DM).
Qed.
Print Assumptions C32_create_dir_partial.
Example C32_create_dir_case : fst (create_dir (L "/d/e/a/b") 448 tree_state) = Ok 7 /\
  (forall pre n l rest, ~ meets_link tree_state [L "d"; L "e"; L "a"; L "b"] pre n l rest).
Proof.
  split; [vm_compute; reflexivity|]. intros pre n l rest (E & A & B).
  destruct pre as [|x [|y [|z [|w pre]]]]; cbn in E; try discriminate E.
  - injection E as <- <-. assert (Some l = Some 2) as [= ->] by (rewrite <- A; vm_compute; reflexivity). vm_compute in B. discriminate B.
  - injection E as <- <- <-. assert (Some l = Some 5) as [= ->] by (rewrite <- A; vm_compute; reflexivity). vm_compute in B. discriminate B.
  - injection E as <- <- <- <-. assert (Some l = None) as [=] by (rewrite <- A; vm_compute; reflexivity).
  - injection E as <- <- <- <- <-. assert (Some l = None) as [=] by (rewrite <- A; vm_compute; reflexivity).
  - apply (f_equal (@length _)) in E. cbn in E. rewrite app_length in E. cbn in E. lia.
Qed.
