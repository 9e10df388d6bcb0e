(** * Attributes: C27 - C31, C33, C34, C54. *)
From Coq Require Import RelationClasses.
From Verif Require Import Str PathModel PathSpec FsModel FsSpec OpsModel IoModel SysModel Wp Frame IoFrame Gen LookEq Limits AttrThm
  GraphInv ResThm TreeThm PropTree PropOps CwdThm ResProofs2.

(** One relation kept by every call of a history. *)
Lemma run_rel (R : fs -> fs -> Prop) {HR : PreOrder R} ops : forall s, Forall (fun o => keeps R (step o)) ops -> R s (run s ops).
Proof.
  induction ops as [|o ops IH]; intros s H; cbn [run]; [reflexivity|]. inversion_clear H as [|? ? H1 H2].
  transitivity (snd (step o s)); [apply H1|apply IH, H2].
Qed.

(** ** C27 *)
(** chmod: on error nothing changed.  Otherwise exactly one object changed, the
    one the argument refers to, and only its mode and ctime: the file type is
    kept; the low 12 bits are those of the argument.  On Windows the three write
    bits follow the owner's write bit and the other bits are kept. *)
Theorem C27_chmod : forall s a m follow r s', chmod a m follow s = (r, s') ->
  (exists e, r = Err e /\ resolve_arg s a follow true = Err e /\ s' = s) \/
  (r = Ok tt /\ exists o, resolve_arg s a follow true = Ok o /\
    touched s s' o (fun x => wo_ctime (wo_mode x (o_mode (ob s' o))) (f_now s)) /\
    S_IFMT (o_mode (ob s' o)) = S_IFMT (o_mode (ob s o)) /\
    (c_win (f_cfg s) = false -> forall i, N.testbit (o_mode (ob s' o)) i = if (i <? 12)%N then N.testbit m i else N.testbit (o_mode (ob s o)) i) /\
    (c_win (f_cfg s) = true -> forall i, (i < 18)%N -> N.testbit (o_mode (ob s' o)) i =
       if N.eqb i 1 || N.eqb i 4 || N.eqb i 7 then N.testbit m 7 else N.testbit (o_mode (ob s o)) i)).
Proof.
  intros s a m follow r s' E. unfold chmod, bind, gets, lift in E. destruct (resolve_arg s a follow true) as [o|e] eqn:Eo.
  2:{ injection E as <- <-. left. exists e. auto. }
  right. unfold mod_obj, modify in E. injection E as <- <-.
  set (f := fun x => wo_ctime (wo_mode x (chmod_mode (f_cfg s) (o_mode x) m)) (f_now s)).
  pose proof (touched_mod s o f) as T. split; [reflexivity|]. exists o. split; [reflexivity|].
  assert (Em : o_mode (ob (mod_ob s o f) o) = chmod_mode (f_cfg s) (o_mode (ob s o)) m) by (rewrite (to_obj _ _ _ _ T); reflexivity).
  split; [|rewrite Em; split].
  - destruct T as [T1 T2 T3]. split; [rewrite T1 at 1; rewrite Em; reflexivity|exact T2|exact T3].
  - apply bits_type. intros i H1 H2. destruct (c_win (f_cfg s)) eqn:Ew.
    + rewrite (chmod_bits_win _ _ _ _ Ew) by lia. destruct (N.eqb_spec i 1); [lia|]. destruct (N.eqb_spec i 4); [lia|]. destruct (N.eqb_spec i 7); [lia|]. reflexivity.
    + rewrite (chmod_bits _ _ _ _ Ew). destruct (N.ltb_spec i 12); [lia|reflexivity].
  - split; [intros Ew i; apply chmod_bits, Ew|intros Ew i Hi; apply chmod_bits_win; assumption].
Qed.
Print Assumptions C27_chmod.

(** For root, chmod changes no lookup: stat of any path looks at the same
    object as before, so it shows the new mode. *)
Theorem C27_chmod_seen : forall s a m follow s', chmod a m follow s = (Ok tt, s') -> is_root s = true ->
  (forall q check, resolve s' q check = resolve s q check) /\ (forall q, exists_ s' q false = exists_ s q false) /\
  (forall q, stat_obj s' (PStr q) true = stat_obj s (PStr q) true) /\
  (forall fd, fstat s' fd = let* x := fd_object s fd in Ok (stat_of s' x)).
Proof.
  intros s a m follow s' E Hr. destruct (C27_chmod _ _ _ _ _ _ E) as [(e & K & _)|(_ & o & _ & T & Ht & _)]; [discriminate|].
  assert (TT : same_tree s s').
  { destruct T as [T1 T2 T3].
    assert (A : forall x, o_name (ob s' x) = o_name (ob s x) /\ o_body (ob s' x) = o_body (ob s x) /\ S_IFMT (o_mode (ob s' x)) = S_IFMT (o_mode (ob s x))).
    { intros x. destruct (Nat.eq_dec x o) as [->|Hx]; [|rewrite (T2 x Hx); auto]. split; [|split; [|exact Ht]]; rewrite T1; reflexivity. }
    split.
    - rewrite T3. reflexivity.
    - rewrite T3. reflexivity.
    - rewrite T3. reflexivity.
    - apply A.
    - intros x. unfold is_dirobj. destruct (A x) as (_ & -> & _). reflexivity.
    - intros x. unfold ents. destruct (A x) as (_ & -> & _). reflexivity.
    - intros x. apply A.
    - intros x _. apply A. }
  split; [intros q check; apply (look_resolve s s' TT (or_introl Hr))|]. split; [intros q; apply (look_exists_follow s s' TT (or_introl Hr))|]. split.
  - intros q. unfold stat_obj, resolve_arg. change (resolve_follow s' q true false) with (resolve s' q false).
    change (resolve_follow s q true false) with (resolve s q false). rewrite (look_resolve s s' TT (or_introl Hr)), (lk_root s s' TT), Hr. cbn [negb].
    destruct (resolve s q false) as [x|]; cbn; [|reflexivity]. rewrite (look_raise s s' TT (or_introl Hr)). reflexivity.
  - intros fd. unfold fstat. rewrite (fd_object_same s s' fd (to_rest _ _ _ _ T)). reflexivity.
Qed.
Print Assumptions C27_chmod_seen.
Example C27_case : exists s', chmod (PStr (L "/d/f")) 3949 true tree_state = (Ok tt, s') /\ is_root tree_state = true /\
  stat_obj s' (PStr (L "/g")) true = Ok 3 /\ ss_mode (stat_of tree_state 3) = 33188%N /\ ss_mode (stat_of s' 3) = 36717%N.
Proof. eexists. split; [vm_compute; reflexivity|]. split; [vm_compute; reflexivity|]. split; [vm_compute; reflexivity|]. split; vm_compute; reflexivity. Qed.

(** ** C28 *)
Definition is_umask (o : op) : bool := match o with Umask _ => true | _ => false end.
Lemma umask_kept o : is_umask o = false -> keeps (fun s s' => f_umask s' = f_umask s) (step o).
Proof.
  intros H s. destruct (env_call o) eqn:E; [|apply (call_env o E s)].
  destruct o; try discriminate E; try discriminate H; try reflexivity. cbn [step]. unfold outm, bind.
  assert (K : f_umask (snd (chdir a s)) = f_umask s); [|destruct (chdir a s) as [[x|e] s1]; exact K].
  unfold chdir, bind, gets, lift, catch, raise_os, raise, modify. destruct (resolve_path_arg s a) as [p|e]; cbv beta iota.
  - destruct (confirmdir s p); [|reflexivity]. destruct (resolve s p true); [|reflexivity].
    destruct (negb (is_root s) && _); reflexivity.
  - destruct e as [e| | | | | | | | | |]; try reflexivity. destruct e; try reflexivity. destruct (c_mac (f_cfg s)); reflexivity.
Qed.

(** umask(m) returns the mask in effect and changes nothing but the mask; after
    any calls other than umask, the next umask call returns m. *)
Theorem C28_umask : forall s m,
  umask m s = (Ok (f_umask s), set_umask s m) /\
  forall ops m', Forall (fun o => is_umask o = false) ops ->
    fst (step (Umask m') (run (snd (step (Umask m) s)) ops)) = Ok (RMode m).
Proof.
  intros s m. split; [reflexivity|]. intros ops m' H.
  assert (K : forall ops s, Forall (fun o => is_umask o = false) ops -> f_umask (run s ops) = f_umask s).
  { clear. induction ops as [|o ops IH]; intros s H; [reflexivity|]. inversion_clear H as [|? ? H1 H2]. cbn [run]. rewrite (IH _ H2). apply (umask_kept o H1 s). }
  cbn. rewrite (K ops _ H). reflexivity.
Qed.
Print Assumptions C28_umask.

(** The permission bits of a new directory (and of a new file, when the umask is
    to be applied) are those of the mode that are not in the mask. *)
Theorem C28_new_mode : forall c s, linux_like c -> reachable c s -> within_limits s ->
  (forall p mode s', makedir p mode s = (Ok tt, s') ->
     exists pre n d o, place s p pre n d /\ entry s' d n = Some o /\
       forall i, (i < 12)%N -> N.testbit (o_mode (ob s' o)) i = N.testbit mode i && negb (N.testbit (f_umask s) i)) /\
  (c_sep c = slash -> forall p mode data o s', create_file p mode (Some data) None false true s = (Ok o, s') ->
     forall i, N.testbit (o_mode (ob s' o)) i = N.testbit mode i && negb (N.testbit (f_umask s) i)).
Proof.
  intros c s Hl Hr W. split.
  - intros p mode s' E. destruct (C19_mkdir c s Hl Hr W p mode s' E) as (pre & n & d & o & Hp & OM & _ & Hm & _).
    exists pre, n, d, o. split; [exact Hp|]. split.
    + unfold entry, ents. rewrite (om_dir _ _ _ _ _ OM). cbn. rewrite assoc_app. pose proof (om_was _ _ _ _ _ OM) as K. unfold entry in K. rewrite K. cbn. rewrite str_eqb_refl. reflexivity.
    + intros i Hi. rewrite Hm, N.lor_spec, N.ldiff_spec. change S_IFDIR with (2 ^ 14)%N. rewrite N.pow2_bits_false by lia. reflexivity.
  - intros Hs p mode data o s' E i. destruct (C17_create_file c s Hl Hr W Hs p mode data true o s' E) as (pre & n & d & _ & _ & _ & Hm & _).
    rewrite Hm, N.ldiff_spec. reflexivity.
Qed.
Print Assumptions C28_new_mode.
Example C28_case : exists s', run tree_state [Umask 2; Mkdir (L "/n") 511; Tick 5] = s' /\
  ss_mode (stat_of s' 6) = 16893%N /\ fst (step (Umask 0) s') = Ok (RMode 2).
Proof. eexists. split; [reflexivity|]. split; vm_compute; reflexivity. Qed.

(** finding 51: os.open with a mode ignores the umask, and without a mode it
    uses the umask the real process had when the filesystem was made.
    (64 = O_CREAT.) *)
Definition c28_ops := [Umask 63; OsOpen (L "/n") 64 (Some 511%N) []; OsOpen (L "/m") 64 None []].
Theorem C28_os_open_refuted :
  let s := run (init posix_cfg None 18 0 0 0) c28_ops in
  reachable posix_cfg s /\ f_umask s = 63%N /\
  stat_obj s (PStr (L "/n")) true = Ok 2 /\ ss_mode (stat_of s 2) = 33279%N (* 0o100777 *) /\
  stat_obj s (PStr (L "/m")) true = Ok 3 /\ ss_mode (stat_of s 3) = 33261%N (* 0o100755 *).
Proof.
  cbv zeta. split; [exists None, 18%N, 0%Z, 0%Z, 0%Z, c28_ops; reflexivity|].
  split; [vm_compute; reflexivity|]. split; [vm_compute; reflexivity|]. split; [vm_compute; reflexivity|]. split; vm_compute; reflexivity.
Qed.
Print Assumptions C28_os_open_refuted.

(** ** C29 *)
(** access looks at the owner bits only, whoever the user is.  Bits 0, 1, 2 of
    the argument ask for execute, write, read. *)
Definition owner_grants (root : bool) (mode : N) (i : N) : bool :=
  (root && N.eqb i 1) || ((i <? 3)%N && N.testbit mode (i + 6)).
Lemma access_bits (root : bool) m mode :
  N.eqb (N.land (if root then N.ldiff m 2 else m) (N.land (N.shiftr mode 6) 7)) (if root then N.ldiff m 2 else m) = true <->
  (forall i, N.testbit m i = true -> owner_grants root mode i = true).
Proof.
  rewrite N.eqb_eq. set (m' := if root then N.ldiff m 2 else m).
  assert (E : forall i, N.testbit m' i = N.testbit m i && negb (root && N.eqb i 1)).
  { intros i. unfold m'. destruct root; [|rewrite andb_true_r; reflexivity]. rewrite N.ldiff_spec. change 2%N with (2 ^ 1)%N. rewrite N.pow2_bits_eqb, (N.eqb_sym 1 i). reflexivity. }
  assert (F : forall i, N.testbit (N.land m' (N.land (N.shiftr mode 6) 7)) i = N.testbit m' i && ((i <? 3)%N && N.testbit mode (i + 6))).
  { intros i. rewrite !N.land_spec, N.shiftr_spec by lia. change 7%N with (N.ones 3).
    destruct (N.ltb_spec i 3); [rewrite N.ones_spec_low by assumption|rewrite N.ones_spec_high by assumption].
    - rewrite andb_true_r. reflexivity.
    - rewrite !andb_false_r. reflexivity. }
  split.
  - intros H i Hi. unfold owner_grants. pose proof (F i) as K. rewrite H, E, Hi in K. cbn [andb] in K.
    destruct (root && (i =? 1)%N); [reflexivity|]. cbn in K. cbn [orb]. symmetry. exact K.
  - intros H. apply N.bits_inj. intros i. rewrite F, E. destruct (N.testbit m i) eqn:Ei; [|reflexivity]. specialize (H i Ei). unfold owner_grants in H.
    destruct (root && (i =? 1)%N); [reflexivity|]. cbn [orb] in H. rewrite H. reflexivity.
Qed.
(** Missing with respect to C29: the class (owner, group, other) of the user is
    not taken into account, see the refutation below. *)
Theorem C29_access_partial : forall s a m follow,
  match stat_obj s a follow with
  | Ok o => exists b, access s a m follow = Ok b /\
      (b = true <-> forall i, N.testbit m i = true -> owner_grants (is_root s) (o_mode (ob s o)) i = true)
  | Err (OSErr ENOENT) => access s a m follow = Ok false
  | Err e => access s a m follow = Err e
  end.
Proof.
  intros s a m follow. unfold access, stat. destruct (stat_obj s a follow) as [o|e]; cbn [rbind].
  - exists (N.eqb (N.land (if is_root s then N.ldiff m 2 else m) (N.land (N.shiftr (ss_mode (stat_of s o)) 6) 7)) (if is_root s then N.ldiff m 2 else m)).
    split; [reflexivity|]. apply access_bits.
  - destruct e as [e| | | | | | | | | |]; try reflexivity. destruct e; reflexivity.
Qed.
Print Assumptions C29_access_partial.
(** F_OK asks for existence *)
Theorem C29_exists : forall s a follow o, stat_obj s a follow = Ok o -> access s a 0 follow = Ok true.
Proof.
  intros s a follow o E. pose proof (C29_access_partial s a 0 follow) as H. rewrite E in H. destruct H as (b & -> & Hb).
  f_equal. apply Hb. intros i Hi. rewrite N.bits_0 in Hi. discriminate.
Qed.
Print Assumptions C29_exists.
(** finding 24: another user's file with mode 0o600 is "readable", and a path
    through a file raises instead of giving False *)
Definition c29_ops := [CreateFile (L "/f") 33152 (Some (L "x")) None false false; SetUid 1000; SetGid 1000].
Definition c29_state := run (init posix_cfg None 18 0 0 0) c29_ops.
Theorem C29_owner_refuted : reachable posix_cfg c29_state /\
  stat c29_state (PStr (L "/f")) true = Ok (stat_of c29_state 2) /\ ss_uid (stat_of c29_state 2) <> f_uid c29_state /\
  ss_gid (stat_of c29_state 2) <> f_gid c29_state /\ ss_mode (stat_of c29_state 2) = 33152%N (* 0o100600 *) /\
  access c29_state (PStr (L "/f")) 6 true = Ok true /\
  access c29_state (PStr (L "/f/x")) 0 true = Err (OSErr ENOTDIR).
Proof.
  split; [exists None, 18%N, 0%Z, 0%Z, 0%Z, c29_ops; reflexivity|]. split; [vm_compute; reflexivity|]. split; [vm_compute; discriminate|].
  split; [vm_compute; discriminate|]. split; [vm_compute; reflexivity|]. split; vm_compute; reflexivity.
Qed.
Print Assumptions C29_owner_refuted.
Example C29_case : access c29_state (PStr (L "/f")) 7 true = Ok false /\ access c29_state (PStr (L "/nn")) 0 true = Ok false.
Proof. split; vm_compute; reflexivity. Qed.

(** ** C31 *)
(** setxattr: an error changes nothing, and is either the lookup error or a
    refusal because of the flags; otherwise one object changed, only in its
    attributes: the key now has the value given, all other keys of this object
    and all attributes of other objects are as before. *)
Theorem C31_setxattr : forall s a k v fl follow r s', is_linux (f_cfg s) = true -> setxattr a k v fl follow s = (r, s') ->
  (exists e, r = Err e /\ s' = s /\
     (resolve_arg s a follow true = Err e \/
      (fl = 1%Z /\ exists w, getxattr s a k follow = Ok (Some w)) \/ (fl = 2%Z /\ getxattr s a k follow = Ok None))) \/
  (r = Ok tt /\ exists o, resolve_arg s a follow true = Ok o /\
     touched s s' o (fun x => wo_xattr x (o_xattr (ob s' o))) /\
     (fl = 1%Z -> getxattr s a k follow = Ok None) /\ (fl = 2%Z -> exists w, getxattr s a k follow = Ok (Some w)) /\
     forall a2 k2 f2,
       (resolve_arg s a2 f2 true = Ok o -> k2 = k -> getxattr s' a2 k2 f2 = Ok (Some v)) /\
       (resolve_arg s a2 f2 true <> Ok o \/ k2 <> k -> getxattr s' a2 k2 f2 = getxattr s a2 k2 f2)).
Proof.
  intros s a k v fl follow r s' Hl E. unfold setxattr, bind, gets, lift in E. rewrite Hl in E. cbn [negb] in E.
  assert (G : forall t b j g, f_cfg t = f_cfg s -> getxattr t b j g = let* o := resolve_arg t b g true in Ok (assoc j (o_xattr (ob t o)))).
  { intros t b j g Ht. unfold getxattr. rewrite Ht, Hl. reflexivity. }
  rewrite (G s a k follow eq_refl). destruct (resolve_arg s a follow true) as [o|e] eqn:Eo.
  2:{ injection E as <- <-. left. exists e. auto. }
  cbn [rbind]. destruct (assoc k (o_xattr (ob s o))) as [w|] eqn:Ek; cbn [andb negb] in E.
  - destruct (Z.eqb_spec fl 1) as [Hf|Hf].
    { injection E as <- <-. left. eexists. split; [reflexivity|]. split; [reflexivity|]. right. left. eauto. }
    right. unfold mod_obj, modify in E. injection E as <- <-. split; [reflexivity|]. exists o. split; [reflexivity|].
    set (f := fun x => wo_xattr x (set_assoc k v (o_xattr x))). pose proof (touched_mod s o f) as T.
    split; [split; [rewrite (to_obj _ _ _ _ T); reflexivity|apply (to_other _ _ _ _ T)|apply (to_rest _ _ _ _ T)]|].
    split; [intros; contradiction|]. split; [eauto|]. intros a2 k2 f2.
    rewrite (G (mod_ob s o f)), (G s) by (try rewrite (to_rest _ _ _ _ T); reflexivity).
    rewrite (touched_arg s _ o f a2 f2 true T) by reflexivity. split.
    + intros -> ->. cbn [rbind]. rewrite (to_obj _ _ _ _ T). unfold f. cbn. rewrite assoc_set_same. reflexivity.
    + intros H. destruct (resolve_arg s a2 f2 true) as [x|]; cbn [rbind]; [|reflexivity]. destruct (Nat.eq_dec x o) as [->|Hx]; [|rewrite (to_other _ _ _ _ T x Hx); reflexivity].
      rewrite (to_obj _ _ _ _ T). unfold f. cbn. destruct H as [H|H]; [congruence|]. rewrite assoc_set_other by congruence. reflexivity.
  - destruct (Z.eqb_spec fl 2) as [Hf|Hf].
    { injection E as <- <-. left. eexists. split; [reflexivity|]. split; [reflexivity|]. right. right. auto. }
    right. unfold mod_obj, modify in E. injection E as <- <-. split; [reflexivity|]. exists o. split; [reflexivity|].
    set (f := fun x => wo_xattr x (set_assoc k v (o_xattr x))). pose proof (touched_mod s o f) as T.
    split; [split; [rewrite (to_obj _ _ _ _ T); reflexivity|apply (to_other _ _ _ _ T)|apply (to_rest _ _ _ _ T)]|].
    split; [auto|]. split; [intros; contradiction|]. intros a2 k2 f2.
    rewrite (G (mod_ob s o f)), (G s) by (try rewrite (to_rest _ _ _ _ T); reflexivity).
    rewrite (touched_arg s _ o f a2 f2 true T) by reflexivity. split.
    + intros -> ->. cbn [rbind]. rewrite (to_obj _ _ _ _ T). unfold f. cbn. rewrite assoc_set_same. reflexivity.
    + intros H. destruct (resolve_arg s a2 f2 true) as [x|]; cbn [rbind]; [|reflexivity]. destruct (Nat.eq_dec x o) as [->|Hx]; [|rewrite (to_other _ _ _ _ T x Hx); reflexivity].
      rewrite (to_obj _ _ _ _ T). unfold f. cbn. destruct H as [H|H]; [congruence|]. rewrite assoc_set_other by congruence. reflexivity.
Qed.
Print Assumptions C31_setxattr.

(** removexattr; a missing key is not an error. *)
Theorem C31_removexattr : forall c s, reachable c s -> is_linux c = true -> forall a k follow r s', removexattr a k follow s = (r, s') ->
  (exists e, r = Err e /\ s' = s /\ resolve_arg s a follow true = Err e) \/
  (r = Ok tt /\ exists o, resolve_arg s a follow true = Ok o /\
     touched s s' o (fun x => wo_xattr x (o_xattr (ob s' o))) /\
     forall a2 k2 f2,
       (resolve_arg s a2 f2 true = Ok o -> k2 = k -> getxattr s' a2 k2 f2 = Ok None) /\
       (resolve_arg s a2 f2 true <> Ok o \/ k2 <> k -> getxattr s' a2 k2 f2 = getxattr s a2 k2 f2)).
Proof.
  intros c s Hr Hl a k follow r s' E. pose proof (reachable_xkeys c s Hr) as X. rewrite <- (reachable_cfg c s Hr) in Hl.
  unfold removexattr, bind, gets, lift in E. rewrite Hl in E. cbn [negb] in E.
  assert (G : forall t b j g, f_cfg t = f_cfg s -> getxattr t b j g = let* o := resolve_arg t b g true in Ok (assoc j (o_xattr (ob t o)))).
  { intros t b j g Ht. unfold getxattr. rewrite Ht, Hl. reflexivity. }
  destruct (resolve_arg s a follow true) as [o|e] eqn:Eo.
  2:{ injection E as <- <-. left. exists e. auto. }
  right. unfold mod_obj, modify in E. injection E as <- <-. split; [reflexivity|]. exists o. split; [reflexivity|].
  set (f := fun x => wo_xattr x (del_assoc k (o_xattr x))). pose proof (touched_mod s o f) as T.
  split; [split; [rewrite (to_obj _ _ _ _ T); reflexivity|apply (to_other _ _ _ _ T)|apply (to_rest _ _ _ _ T)]|]. intros a2 k2 f2.
  rewrite (G (mod_ob s o f)), (G s) by (try rewrite (to_rest _ _ _ _ T); reflexivity).
  rewrite (touched_arg s _ o f a2 f2 true T) by reflexivity. split.
  - intros -> ->. cbn [rbind]. rewrite (to_obj _ _ _ _ T). unfold f. cbn. rewrite assoc_del_same by apply X. reflexivity.
  - intros H. destruct (resolve_arg s a2 f2 true) as [x|]; cbn [rbind]; [|reflexivity]. destruct (Nat.eq_dec x o) as [->|Hx]; [|rewrite (to_other _ _ _ _ T x Hx); reflexivity].
    rewrite (to_obj _ _ _ _ T). unfold f. cbn. destruct H as [H|H]; [congruence|]. rewrite assoc_del_other by congruence. reflexivity.
Qed.
Print Assumptions C31_removexattr.

(** listxattr: exactly the keys that have a value, each once *)
Theorem C31_listxattr : forall c s, reachable c s -> forall a follow l, listxattr s (Some a) follow = Ok l ->
  NoDup l /\ forall k, In k l <-> exists v, getxattr s a k follow = Ok (Some v).
Proof.
  intros c s Hr a follow l E. unfold listxattr, getxattr in *. destruct (negb (is_linux (f_cfg s))); [discriminate|].
  destruct (resolve_arg s a follow true) as [o|]; [|discriminate]. cbn [rbind] in *. injection E as <-. split; [apply (reachable_xkeys c s Hr)|].
  intros k. split.
  - intros H. destruct (assoc k (o_xattr (ob s o))) as [v|] eqn:K; [exists v; reflexivity|]. apply assoc_None in K. contradiction.
  - intros [v H]. injection H as H. apply assoc_In in H. apply (in_map fst _ _ H).
Qed.
Print Assumptions C31_listxattr.

(** No other call touches the attributes of an object that exists. *)
Theorem C31_other_calls : forall s ops, Forall (fun o => attr_call o = false) ops ->
  forall o, o < f_next s -> o_xattr (ob (run s ops) o) = o_xattr (ob s o).
Proof.
  intros s ops H o Ho. assert (K : attrs_kept s (run s ops)); [|apply K, Ho].
  apply run_rel; [exact attrs_kept_pre|]. eapply Forall_impl; [|exact H]. intros x Hx. apply ak_step, Hx.
Qed.
Print Assumptions C31_other_calls.

(** finding 16: the flags: XATTR_CREATE (1) on an existing key should give
    EEXIST, XATTR_REPLACE (2) on a missing one ENODATA; they are swapped *)
Theorem C31_errno_refuted : exists s, reachable posix_cfg s /\
  getxattr s (PStr (L "/g")) (L "k") true = Ok (Some (L "v")) /\ getxattr s (PStr (L "/g")) (L "x") true = Ok None /\
  fst (setxattr (PStr (L "/g")) (L "k") (L "w") 1 true s) = os_err ENODATA /\
  fst (setxattr (PStr (L "/g")) (L "x") (L "w") 2 true s) = os_err EEXIST.
Proof.
  exists (run (init posix_cfg None 18 0 0 0) (tree_ops ++ [SetXattr (PStr (L "/g")) (L "k") (L "v") 0 true])).
  split; [exists None, 18%N, 0%Z, 0%Z, 0%Z, (tree_ops ++ [SetXattr (PStr (L "/g")) (L "k") (L "v") 0 true]); reflexivity|].
  split; [vm_compute; reflexivity|]. split; [vm_compute; reflexivity|]. split; vm_compute; reflexivity.
Qed.
Print Assumptions C31_errno_refuted.
Example C31_case : exists s', run tree_state [SetXattr (PStr (L "/g")) (L "k") (L "v") 1 true; SetXattr (PStr (L "/g")) (L "j") (L "w") 0 true;
    RemoveXattr (PStr (L "/d/f")) (L "k") true] = s' /\
  listxattr s' (Some (PStr (L "/d/f"))) true = Ok [L "j"] /\ getxattr s' (PStr (L "/g")) (L "k") true = Ok None /\
  getxattr s' (PStr (L "/g")) (L "j") true = Ok (Some (L "w")).
Proof. eexists. split; [reflexivity|]. split; [vm_compute; reflexivity|]. split; vm_compute; reflexivity. Qed.

(** ** C33 *)
(** The two times asked for (whole seconds or nanoseconds), now without them. *)
Definition times_asked (now : Z) (times ns : option (list Z)) (at_ mt : Z) : Prop :=
  match times, ns with
  | Some [t0; t1], None => at_ = (t0 * 1000000000)%Z /\ mt = (t1 * 1000000000)%Z
  | None, Some [n0; n1] => at_ = n0 /\ mt = n1
  | None, None => at_ = now /\ mt = now
  | _, _ => False
  end.
Definition not_a_pair (l : option (list Z)) : Prop := match l with Some [_; _] | None => False | _ => True end.
Theorem C33_utime : forall s a times ns follow r s', utime a times ns follow s = (r, s') ->
  (times <> None /\ ns <> None /\ r = Err ValueErr /\ s' = s) \/
  ((times = None \/ ns = None) /\ (not_a_pair times \/ not_a_pair ns) /\ r = Err TypeErr /\ s' = s) \/
  (exists e, r = Err e /\ resolve_arg s a follow true = Err e /\ s' = s) \/
  (r = Ok tt /\ exists o at_ mt, resolve_arg s a follow true = Ok o /\ times_asked (f_now s) times ns at_ mt /\
     touched s s' o (fun x => wo_mtime (wo_atime x at_) mt) /\
     (* stat of every path looks at the same object as before *)
     forall a2 f2, stat_obj s' a2 f2 = stat_obj s a2 f2).
Proof.
  intros s a times ns follow r s' E.
  assert (F : forall at_ mt, times_asked (f_now s) times ns at_ mt ->
    (o <- lift (fun s => resolve_arg s a follow true) ;; mod_obj o (fun x => wo_mtime (wo_atime x at_) mt)) s = (r, s') ->
    (exists e, r = Err e /\ resolve_arg s a follow true = Err e /\ s' = s) \/
    (r = Ok tt /\ exists o at_ mt, resolve_arg s a follow true = Ok o /\ times_asked (f_now s) times ns at_ mt /\
     touched s s' o (fun x => wo_mtime (wo_atime x at_) mt) /\ forall a2 f2, stat_obj s' a2 f2 = stat_obj s a2 f2)).
  { intros at_ mt Ht K. unfold bind, lift in K. destruct (resolve_arg s a follow true) as [o|e].
    - right. unfold mod_obj, modify in K. injection K as <- <-. split; [reflexivity|]. exists o, at_, mt. split; [reflexivity|]. split; [exact Ht|].
      pose proof (touched_mod s o (fun x => wo_mtime (wo_atime x at_) mt)) as T. split; [exact T|]. intros a2 f2. apply (touched_stat_obj s _ o _ a2 f2 T); reflexivity.
    - left. injection K as <- <-. exists e. auto. }
  unfold utime in E. destruct times as [l|], ns as [l'|].
  - left. injection E as <- <-. repeat split; discriminate.
  - destruct l as [|t0 [|t1 [|t2 l]]]; cbn in E.
    + right. left. injection E as <- <-. split; [auto|]. split; [left; exact I|auto].
    + right. left. injection E as <- <-. split; [auto|]. split; [left; exact I|auto].
    + right. right. apply (F _ _ (conj eq_refl eq_refl)). exact E.
    + right. left. injection E as <- <-. split; [auto|]. split; [left; exact I|auto].
  - destruct l' as [|t0 [|t1 [|t2 l]]]; cbn in E.
    + right. left. injection E as <- <-. split; [auto|]. split; [right; exact I|auto].
    + right. left. injection E as <- <-. split; [auto|]. split; [right; exact I|auto].
    + right. right. apply (F _ _ (conj eq_refl eq_refl)). exact E.
    + right. left. injection E as <- <-. split; [auto|]. split; [right; exact I|auto].
  - right. right. apply (F _ _ (conj eq_refl eq_refl)). exact E.
Qed.
Print Assumptions C33_utime.
Example C33_case : exists s', utime (PStr (L "/d/l")) (Some [3; 4]%Z) None false tree_state = (Ok tt, s') /\
  stat_obj s' (PStr (L "/d/l")) false = Ok 4 /\ ss_mtime (stat_of s' 4) = 4000000000%Z /\
  fst (utime (PStr (L "/g")) (Some [1; 2]%Z) (Some [1; 2]%Z) true tree_state) = Err ValueErr /\
  fst (utime (PStr (L "/g")) (Some [1]%Z) None true tree_state) = Err TypeErr.
Proof. eexists. split; [vm_compute; reflexivity|]. split; [vm_compute; reflexivity|]. split; [vm_compute; reflexivity|]. split; vm_compute; reflexivity. Qed.

(** ** C54 *)
(** chown: one object gets the owner and group given (-1: unchanged); no other
    call changes the owner of an object that exists. *)
Theorem C54_chown : forall s a uid gid follow r s', chown a uid gid follow s = (r, s') ->
  (exists e, r = Err e /\ resolve_arg s a follow true = Err e /\ s' = s) \/
  (r = Ok tt /\ exists o, resolve_arg s a follow true = Ok o /\
     touched s s' o (fun x => wo_gid (wo_uid x (if Z.eqb uid (-1) then o_uid x else uid)) (if Z.eqb gid (-1) then o_gid x else gid)) /\
     forall a2 f2, stat_obj s' a2 f2 = stat_obj s a2 f2).
Proof.
  intros s a uid gid follow r s' E. unfold chown, bind, lift in E. destruct (resolve_arg s a follow true) as [o|e].
  2:{ left. injection E as <- <-. exists e. auto. }
  right. unfold mod_obj, modify in E. injection E as <- <-. split; [reflexivity|]. exists o. split; [reflexivity|].
  match goal with |- touched s (mod_ob s o ?f) o _ /\ _ => set (g := f) end. pose proof (touched_mod s o g) as T. split.
  - split; [rewrite (to_obj _ _ _ _ T)|apply (to_other _ _ _ _ T)|apply (to_rest _ _ _ _ T)]. unfold g.
    destruct (ob s o). destruct (Z.eqb uid (-1)), (Z.eqb gid (-1)); reflexivity.
  - intros a2 f2. apply (touched_stat_obj s _ o g a2 f2 T); intros x; unfold g; destruct (Z.eqb uid (-1)), (Z.eqb gid (-1)); reflexivity.
Qed.
Print Assumptions C54_chown.
Theorem C54_other_calls : forall s ops, Forall (fun o => attr_call o = false) ops ->
  forall o, o < f_next s -> o_uid (ob (run s ops) o) = o_uid (ob s o) /\ o_gid (ob (run s ops) o) = o_gid (ob s o).
Proof.
  intros s ops H o Ho. assert (K : attrs_kept s (run s ops)); [|destruct K as [_ K]; destruct (K o Ho) as (K1 & K2 & _); auto].
  apply run_rel; [exact attrs_kept_pre|]. eapply Forall_impl; [|exact H]. intros x Hx. apply ak_step, Hx.
Qed.
Print Assumptions C54_other_calls.
Example C54_case : exists s', chown (PStr (L "/g")) 5 (-1) true tree_state = (Ok tt, s') /\
  ss_uid (stat_of s' 3) = 5%Z /\ ss_gid (stat_of s' 3) = 0%Z /\ stat_obj s' (PStr (L "/d/f")) true = Ok 3.
Proof. eexists. split; [vm_compute; reflexivity|]. split; [vm_compute; reflexivity|]. split; vm_compute; reflexivity. Qed.

(** ** C34 *)
(** The sizes a user asks for make sense: a new mount point has no negative
    size, and a limit put on mount points without one is not below what they
    already use (finding 4; with a limit already set the call itself refuses). *)
Definition sensible (s : fs) (o : op) : Prop :=
  match o with
  | AddMount _ (Some t) => (0 <= t)%Z
  | SetDiskUsage t _ => forall k m, In (k, m) (f_mounts s) -> m_total m = None -> (m_used m <= t)%Z
  | _ => True
  end.
Fixpoint sensible_all (s : fs) (ops : list op) : Prop :=
  match ops with [] => True | o :: ops' => sensible s o /\ sensible_all (snd (step o s)) ops' end.
Lemma mount_path_posix p s : c_win (f_cfg s) = false -> snd (mount_point_for_path p s) = s.
Proof.
  intros H. unfold mount_point_for_path, mount_point_for_path_, auto_mount_force, bind, gets, ret, raise.
  destruct (assoc _ _); [reflexivity|]. destruct (nonempty _); [reflexivity|]. rewrite H. reflexivity.
Qed.
Lemma sensible_step s o : c_win (f_cfg s) = false -> within_limits s -> sensible s o -> within_limits (snd (step o s)).
Proof.
  intros Hw W H.
  destruct o; try (apply (gen_step _ _ _ (fp_core _ _ _ _ rl_prims) rl_prims); [intros; exact Logic.I|intros; exact Logic.I|intros; discriminate|discriminate|exact W]).
  - apply (gen_step _ _ _ (fp_core _ _ _ _ rl_prims) rl_prims); [intros; exact Logic.I|intros; exact Logic.I| |discriminate|exact W]. intros q t E. injection E as <- <-. exact H.
  - cbn [step]. cbn in H. assert (K : forall q, within_limits (snd (set_disk_usage total (Some q) s))).
    { intros q. unfold set_disk_usage, ret, bind at 1. unfold bind at 1. pose proof (mount_path_posix q s Hw) as E.
      destruct (mount_point_for_path q s) as [[k|e] s1]; cbn in E; subst s1; [|exact W].
      unfold bind, gets. destruct (assoc k (f_mounts s)) as [m|] eqn:Em; [|exact W].
      destruct (match m_total m with Some _ => (total <? m_used m)%Z | None => false end) eqn:Ec; [exact W|].
      unfold modify. cbn [snd]. intros k' m' t' Hin Ht'. cbn in Hin. destruct (set_assoc_in _ _ _ _ _ Hin) as [K|[-> ->]]; [exact (W k' m' t' K Ht')|].
      cbn in Ht'. injection Ht' as <-. cbn. destruct (m_total m) eqn:Et; [apply Z.ltb_ge, Ec|]. apply (H k m (assoc_In _ _ _ Em) Et). }
    assert (K2 : forall A (x : res A * fs), within_limits (snd x) -> within_limits (snd (match x with (Ok _, s') => (Ok RUnit, s') | (Err e, s') => (Err e, s') end))) by (intros A [[x|e] s'] Q; exact Q).
    destruct p as [q|]; [apply (K2 _ (set_disk_usage total (Some q) s)), K|].
    apply (K2 _ (set_disk_usage total None s)). exact (K (o_name (ob s root_oid))).
Qed.
Theorem C34_usage_within_size : forall c total um uid gid now ops, c_win c = false ->
  match total with Some t => (0 <= t)%Z | None => True end ->
  sensible_all (init c total um uid gid now) ops -> within_limits (run (init c total um uid gid now) ops).
Proof.
  intros c total um uid gid now ops Hw Ht H.
  assert (W : within_limits (init c total um uid gid now)).
  { intros k m t [E|[]] Em. injection E as <- <-. cbn in *. subst total. exact Ht. }
  assert (Hc : c_win (f_cfg (init c total um uid gid now)) = false) by exact Hw.
  revert W Hc H. generalize (init c total um uid gid now). induction ops as [|o ops IH]; intros s W Hc H; [exact W|].
  cbn [run]. destruct H as [H1 H2]. apply IH; [apply sensible_step; assumption|rewrite call_cfg; exact Hc|exact H2].
Qed.
Print Assumptions C34_usage_within_size.

(** Growing a file beyond the free space: ENOSPC, and nothing changed. *)
Theorem C34_truncate_no_space : forall s a n o m t, resolve_arg s a true true = Ok o -> is_dirobj s o = false ->
  mount_for_dev (f_mounts s) (o_dev (ob s o)) = Some m -> m_total m = Some t -> (t < m_used m + (n - ss_size (stat_of s o)))%Z ->
  os_truncate a n s = (os_err ENOSPC, s).
Proof.
  intros s a n o m t Eo Hd Em Et Hn. unfold os_truncate, bind, lift. rewrite Eo. unfold set_size, bind, gets.
  unfold is_dirobj in Hd. destruct (o_body (ob s o)) as [es|data]; [discriminate|]. destruct (n <? 0)%Z; [reflexivity|].
  unfold change_disk_usage. rewrite Em, Et. cbn in Hn. destruct (Z.ltb_spec (t - m_used m) (n - st_size s o)); [reflexivity|lia].
Qed.
Print Assumptions C34_truncate_no_space.
(** finding 4: a first limit below the usage is accepted *)
Definition c34_ops := [CreateFile (L "/f") 33188 (Some (L "0123456789")) None false false; SetDiskUsage 5 None].
Theorem C34_first_limit_refuted : let s := run (init posix_cfg None 18 0 0 0) c34_ops in
  reachable posix_cfg s /\ fst (get_disk_usage None s) = Ok (5, 10, -5)%Z.
Proof. cbv zeta. split; [exists None, 18%N, 0%Z, 0%Z, 0%Z, c34_ops; reflexivity|vm_compute; reflexivity]. Qed.
Print Assumptions C34_first_limit_refuted.
Example C34_case : let ops := [CreateFile (L "/f") 33188 (Some (L "0123456789")) None false false; SetDiskUsage 5 None;
    AddMount (L "/m") (Some 3%Z); CreateFile (L "/m/f") 33188 (Some (L "0123")) None false false; Truncate (PStr (L "/f")) 21] in
  let s0 := init posix_cfg (Some 20%Z) 18 0 0 0 in
  sensible_all s0 ops /\ outs s0 ops = [Ok (RObj 2); os_err ENOSPC; Ok (RPath (L "/m")); os_err ENOSPC; os_err ENOSPC].
Proof.
  cbv zeta. split; [|vm_compute; reflexivity]. split; [exact I|]. split.
  - assert (E : f_mounts (snd (step (CreateFile (L "/f") 33188 (Some (L "0123456789")) None false false) (init posix_cfg (Some 20%Z) 18 0 0 0))) =
      [([slash], {| m_idev := 1; m_total := Some 20%Z; m_used := 10 |})]) by (vm_compute; reflexivity).
    intros k m Hin Ht. rewrite E in Hin. destruct Hin as [K|[]]. injection K as <- <-. discriminate Ht.
  - split; [cbn; lia|]. split; [exact I|]. split; exact I.
Qed.

(** ** C30 *)
(** chdir: a failure changes nothing, a success changes only the current
    directory, which becomes the resolved path of the argument; this path has a
    directory bit, and leads to the object without meeting a link (unless it is
    the null device, which has no such bit). *)
Theorem C30_chdir_partial : forall c s, linux_like c -> reachable c s -> forall p r s', chdir (PStr p) s = (r, s') ->
  (exists e, r = Err e /\ s' = s) \/
  (r = Ok tt /\ exists rp d, resolve_path s p = Ok rp /\ s' = set_cwd s rp /\
     resolve s rp true = Ok d /\ has_bit (o_mode (ob s d)) S_IFDIR = true /\
     (rp <> devnull_name s -> exists rr, rp = abs_path (sepc s) rr /\ (forall pre n l rest, ~ meets_link s rr pre n l rest) /\
        (Forall (ordinary (sepc s)) rr -> at_names s rr = Some d))).
Proof.
  intros c s Hl Hr p r s' E. destruct (reachable_GP c s Hl Hr) as [H _]. unfold chdir, bind, gets, lift, catch, raise_os, raise, modify in E. cbn [resolve_path_arg] in E.
  destruct (resolve_path s p) as [rp|e] eqn:Erp; cbv beta iota in E.
  2:{ left. destruct e as [e| | | | | | | | | |]; try (injection E as <- <-; eauto). destruct e; try (injection E as <- <-; eauto). destruct (c_mac (f_cfg s)); injection E as <- <-; eauto. }
  destruct (confirmdir s rp) as [d0|e] eqn:Ec; [|left; injection E as <- <-; eauto].
  destruct (resolve s rp true) as [d|e] eqn:Ed; [|left; injection E as <- <-; eauto].
  destruct (negb (is_root s) && _); [left; injection E as <- <-; eauto|]. injection E as <- <-. right. split; [reflexivity|]. exists rp, d.
  split; [reflexivity|]. split; [reflexivity|]. split; [exact Ed|]. unfold confirmdir in Ec. rewrite Ed in Ec. cbn in Ec.
  split; [destruct (has_bit (o_mode (ob s d)) S_IFDIR); [reflexivity|discriminate]|].
  intros Hn. destruct (resolve_path_shape s p rp H Erp) as (rr & -> & Hc & Hrr).
  destruct Hrr as [[_ K]|Hlf]; [contradiction|]. exists rr. split; [reflexivity|]. split; [exact Hlf|]. intros Ho.
  assert (Hnn : ~ is_null s rr) by (intros [_ K]; contradiction). pose proof (Ginv_good s H) as Hg.
  unfold resolve in Ed. apply (resolve_ok s Hg) in Ed. destruct Ed as (r2 & E2 & Hc2 & K2).
  assert (r2 = rr).
  { apply (resolve_path_ok s Hg) in E2. destruct E2 as (_ & _ & ns & r3 & Hns & Ea & Hrs & Eq). rewrite (anp_abs_path s rr Hg Ho) in Ea.
    apply (abs_path_clean_inj (f_cfg s) (gi_lin s H)) in Ea; [|exact Hc|eapply Forall_impl; [|exact Hns]; intros w (K1 & _ & _ & K3); split; assumption]. subst ns.
    pose proof (resolved_det s Hg rr rr r3 (linkfree_resolved s rr Hlf) Hrs) as Er. subst r3.
    apply (abs_path_clean_inj (f_cfg s) (gi_lin s H)) in Eq; assumption. }
  subst r2. destruct K2 as [[K2 _]|(_ & K2 & _)]; [contradiction|exact K2].
Qed.
Print Assumptions C30_chdir_partial.

(** While the current directory exists, a relative path means the same as the
    path joined to the current directory. *)
Theorem C30_relative : forall c s, linux_like c -> reachable c s -> forall names d,
  f_cwd s = abs_path (sepc s) names -> at_names s names = Some d -> (forall pre n l rest, ~ meets_link s names pre n l rest) ->
  forall q, q <> [] -> is_abs (sepc s) q = false ->
  resolve_path s q = resolve_path s (cwd_join s q) /\ (forall check, resolve s q check = resolve s (cwd_join s q) check) /\
  listdir s (PStr q) = listdir s (PStr (cwd_join s q)).
Proof.
  intros c s Hl Hr names d Hc Ha Hlf q Hq Hrel. destruct (reachable_GP c s Hl Hr) as [H _].
  pose proof (rel_resolve_path s H names d Hc Ha Hlf q Hq Hrel) as E. split; [exact E|]. split.
  - intros check. unfold resolve, resolve_. change (resolve_path_ (exists_top s) s q) with (resolve_path s q). rewrite E. reflexivity.
  - unfold listdir. cbn [resolve_path_arg]. rewrite E. reflexivity.
Qed.
Print Assumptions C30_relative.

(** findings 23, 41 and 49: a user without search permission may change into a
    directory; a path above the root becomes the current directory; a block
    device counts as a directory (24576 = S_IFBLK, 25087 = 24576 + 0o777) *)
Definition c30_ops := [Mkdir (L "/a") 511; Mkdir (L "/a/b") 511; Symlink (L "../../a") (L "/l"); Mknod (L "/blk") 25087 0;
  Mkdir (L "/priv") 384; SetUid 1000].
Definition c30_state := run (init posix_cfg None 18 0 0 0) c30_ops.
Theorem C30_refuted : reachable posix_cfg c30_state /\ is_root c30_state = false /\
  (exists st, stat c30_state (PStr (L "/priv")) true = Ok st /\ ss_mode st = 16768%N) (* 0o40600 *) /\
  fst (chdir (PStr (L "/priv")) c30_state) = Ok tt /\
  isdir c30_state (L "/blk") true = Ok false /\ fst (chdir (PStr (L "/blk")) c30_state) = Ok tt /\
  fst (chdir (PStr (L "/l/b")) c30_state) = Ok tt /\ f_cwd (snd (chdir (PStr (L "/l/b")) c30_state)) = L "/../../a/b".
Proof.
  split; [exists None, 18%N, 0%Z, 0%Z, 0%Z, c30_ops; reflexivity|]. split; [vm_compute; reflexivity|].
  split; [eexists; split; vm_compute; reflexivity|]. split; [vm_compute; reflexivity|]. split; [vm_compute; reflexivity|].
  split; [vm_compute; reflexivity|]. split; vm_compute; reflexivity.
Qed.
Print Assumptions C30_refuted.
Example C30_case : exists s', chdir (PStr (L "/d/e")) tree_state = (Ok tt, s') /\ f_cwd s' = abs_path slash [L "d"; L "e"] /\
  at_names s' [L "d"; L "e"] = Some 5 /\ resolve s' (L "../f") true = Ok 3 /\ cwd_join s' (L "../f") = L "/d/e/../f" /\
  (forall pre n l rest, ~ meets_link s' [L "d"; L "e"] pre n l rest).
Proof.
  eexists. split; [vm_compute; reflexivity|]. split; [vm_compute; reflexivity|]. split; [vm_compute; reflexivity|].
  split; [vm_compute; reflexivity|]. split; [vm_compute; reflexivity|].
  intros pre n l rest (E & Ha & Hl). destruct pre as [|p0 [|p1 pre]].
  - injection E as <- <-. vm_compute in Ha. injection Ha as <-. vm_compute in Hl. discriminate Hl.
  - injection E as <- <- <-. vm_compute in Ha. injection Ha as <-. vm_compute in Hl. discriminate Hl.
  - destruct pre; discriminate E.
Qed.
