(** * C85: pathlib's Path.mkdir(parents, exist_ok). *)
From Verif Require Export MkdirModel.
From Verif Require Import SysModel FsSpec PathProofs ResProofs ResProofs2 GraphInv ResThm OpsThm OpsThm2 OpsThm4 OpsThm6 GraphOps4 TreeThm PropMake PropTree PropOps PropFd.

(** [s'] is [s] after some missing directories of the path [names] were made:
    objects that are no directories are the same, directories keep their mode
    and entries, and the only new entries of directories that were there are
    names of the path: directories that were not there, in the place the path
    says.  What could be reached still can be, under the same names. *)
Record grown (s s' : fs) (names : list str) : Prop := {
  gr_next : f_next s <= f_next s';
  gr_file : forall x, x < f_next s -> is_dirobj s x = false -> ob s' x = ob s x;
  gr_dir : forall x, x < f_next s -> is_dirobj s' x = is_dirobj s x /\ o_mode (ob s' x) = o_mode (ob s x) /\
             o_mtime (ob s' x) = o_mtime (ob s x) /\ o_ino (ob s' x) = o_ino (ob s x);
  gr_ent : forall x m, x < f_next s -> entry s' x m = entry s x m \/
             entry s x m = None /\ exists o pre rest, names = pre ++ m :: rest /\
               resolve s' (abs_path (sepc s') pre) true = Ok x /\
               entry s' x m = Some o /\ f_next s <= o /\ is_dirobj s' o = true;
  gr_still : still_there s s';
  gr_rest : s' = set_ino (set_next (set_heap s (f_heap s')) (f_next s')) (f_ino s')
}.

Lemma still_refl s : still_there s s.
Proof. intros q k x E _. auto. Qed.
Lemma unseen_ext s s' : Ginv s -> unseen s s' -> ext s s'.
Proof.
  intros H [A B R].
  assert (Hlt : forall names x, at_names s names = Some x -> x < f_next s).
  { intros names x K. pose proof (gi_next s H). pose proof (tree_at_lt s root_oid names x H) as L. unfold root_oid in L. exact (L ltac:(lia) K). }
  constructor.
  - rewrite R. reflexivity.
  - rewrite R. reflexivity.
  - rewrite R. reflexivity.
  - unfold devnull_name. rewrite A; [reflexivity|]. pose proof (gi_next s H). unfold devnull_oid. lia.
  - intros e m o K. destruct (entry_lt s e m o H K) as [_ L]. unfold entry, ents in *. rewrite A by assumption. exact K.
  - intros names x K. rewrite A; [reflexivity|apply (Hlt names x K)].
  - intros names x data K Eb. rewrite A; [exact Eb|apply (Hlt names x K)].
Qed.
Lemma unseen_grown s s' names : Ginv s -> Ginv s' -> unseen s s' -> f_mounts s' = f_mounts s -> grown s s' names.
Proof.
  intros H H' U Em. pose proof (ext_still s s' H H' (unseen_ext s s' H U)) as X. destruct U as [A B R]. constructor; try assumption.
  - intros x L _. apply A, L.
  - intros x L. unfold is_dirobj. rewrite (A x L). auto.
  - intros x m L. left. unfold entry, ents. rewrite (A x L). reflexivity.
Qed.
Lemma grown_sep s s' names : grown s s' names -> sepc s' = sepc s.
Proof. intros G. rewrite (gr_rest _ _ _ G). reflexivity. Qed.
Lemma grown_trans a b c na nb : Ginv a -> Ginv b -> (exists z, nb = na ++ z) -> grown a b na -> grown b c nb -> grown a c nb.
Proof.
  intros H HB [z Ez] A B. pose proof (gr_next _ _ _ A) as LA. pose proof (gr_next _ _ _ B) as LB. constructor.
  - lia.
  - intros x L D. destruct (gr_dir _ _ _ A x L) as [D1 _]. rewrite (gr_file _ _ _ B x) by (lia || congruence). apply (gr_file _ _ _ A x L D).
  - intros x L. destruct (gr_dir _ _ _ A x L) as (D1 & D2 & D3 & D4). destruct (gr_dir _ _ _ B x ltac:(lia)) as (E1 & E2 & E3 & E4).
    repeat split; congruence.
  - intros x m L. destruct (gr_ent _ _ _ A x m L) as [EA|(NA & o & pre & rest & En & Er & Ee & Lo & Do)];
    destruct (gr_ent _ _ _ B x m ltac:(lia)) as [EB|(NB & o2 & pre2 & rest2 & En2 & Er2 & Ee2 & Lo2 & Do2)].
    + left. congruence.
    + right. split; [congruence|]. exists o2, pre2, rest2. repeat (split; [assumption|]). split; [lia|assumption].
    + right. split; [assumption|]. exists o, pre, (rest ++ z). split; [rewrite Ez, En, <- app_assoc; reflexivity|].
      split.
      { rewrite (grown_sep _ _ _ B). apply (gr_still _ _ _ B _ _ _ Er).
        intros ->. apply entry_dirobj in Ee. rewrite (gi_null b HB) in Ee. discriminate. }
      split; [congruence|]. split; [assumption|]. destruct (entry_lt b x m o HB Ee) as [Lo' _]. destruct (gr_dir _ _ _ B o Lo') as [-> _]. exact Do.
    + rewrite Ee in NB. discriminate.
  - apply (still_trans a b c (gr_still _ _ _ A) (gr_still _ _ _ B)).
  - rewrite (gr_rest _ _ _ B). rewrite (gr_rest _ _ _ A) at 1. reflexivity.
Qed.

Lemma names_here s names : Ginv s -> Forall (ordinary (sepc s)) names -> names_of s (abs_path (sepc s) names) names.
Proof.
  intros H F. apply anp_names_of; [apply Ginv_good, H|unfold abs_path; discriminate|exact F|]. apply anp_abs_path; [apply Ginv_good, H|exact F].
Qed.

(** One makedir of "/names" *)
Lemma one_mkdir s names mode r s' : Ginv s -> within_limits s -> Forall (ordinary (sepc s)) names ->
  makedir (abs_path (sepc s) names) mode s = (r, s') ->
  Ginv s' /\ within_limits s' /\ grown s s' names /\
  ((exists e, r = Err e /\ unseen s s') \/
   (r = Ok tt /\ exists o, f_next s <= o /\ o_mode (ob s' o) = N.lor S_IFDIR (N.ldiff mode (f_umask s)) /\ o_body (ob s' o) = BDir [] /\
      (null_free s' -> resolve s' (abs_path (sepc s) names) false = Ok o))).
Proof.
  intros H W F E.
  assert (H' : Ginv s') by (pose proof (makedir_pres (abs_path (sepc s) names) mode s H) as K; rewrite E in K; exact K).
  split; [exact H'|]. destruct r as [[]|e].
  - destruct (makedir_done s _ mode s' H W E) as (pre & n & d & o & [Hp Hr] & OM & BN & Hm & Hb & Hnl & Hmt & Hres).
    destruct (bn_new _ _ _ _ BN) as [Ho Hn']. subst o.
    assert (En : names = pre ++ [n]).
    { pose proof (names_here s names H F) as K. unfold names_of in K, Hp. rewrite K in Hp.
      rewrite <- (rev_involutive names), Hp, rev_involutive. reflexivity. }
    pose proof (one_more_new_ext s s' d n H OM) as X.
    pose proof (ext_still s s' H H' X) as ST.
    pose proof (dirobj_lt s d H (om_isdir _ _ _ _ _ OM)) as Ld.
    assert (Hd0 : d <> devnull_oid).
    { intros ->. pose proof (om_isdir _ _ _ _ _ OM) as K. rewrite (gi_null s H) in K. discriminate. }
    assert (Ent : ents s' (f_next s) = ents s (f_next s)).
    { unfold ents. rewrite Hb. pose proof (gi_new s H (f_next s) (le_n _)) as K. unfold is_dirobj in K. destruct (o_body (ob s (f_next s))); [discriminate|reflexivity]. }
    assert (Esep : sepc s' = sepc s) by (rewrite (om_rest _ _ _ _ _ OM); reflexivity).
    assert (Enew : entry s' d n = Some (f_next s)).
    { unfold entry, ents at 1. rewrite (om_dir _ _ _ _ _ OM). cbn. rewrite assoc_app. pose proof (om_was _ _ _ _ _ OM) as K. unfold entry in K. rewrite K.
      cbn. rewrite str_eqb_refl. reflexivity. }
    split; [|split].
    + intros k m t K. rewrite Hmt in K. apply (W k m t K).
    + constructor.
      * lia.
      * intros x L D. apply (om_other _ _ _ _ _ OM); [intros ->; rewrite (om_isdir _ _ _ _ _ OM) in D; discriminate|lia].
      * intros x L. destruct (Nat.eq_dec x d) as [->|Ne].
        { rewrite (om_isdir _ _ _ _ _ OM). unfold is_dirobj. rewrite (om_dir _ _ _ _ _ OM). cbn. auto. }
        unfold is_dirobj. rewrite (om_other _ _ _ _ _ OM) by (assumption || lia). auto.
      * intros x m L. destruct (Nat.eq_dec x d) as [->|Ne]; [destruct (str_eqb_spec m n) as [->|Nm]|].
        { right. split; [apply (om_was _ _ _ _ _ OM)|]. exists (f_next s), pre, []. split; [exact En|].
          rewrite Esep. split; [apply (ST _ _ _ Hr Hd0)|]. split; [exact Enew|]. split; [lia|]. unfold is_dirobj. rewrite Hb. reflexivity. }
        { left. apply (one_more_entry s s' d n (f_next s) H OM Ent). intros [_ K]. contradiction. }
        { left. apply (one_more_entry s s' d n (f_next s) H OM Ent). intros [K _]. contradiction. }
      * exact ST.
      * rewrite (om_rest _ _ _ _ _ OM) at 1. rewrite Hmt. destruct s; reflexivity.
    + right. split; [reflexivity|]. exists (f_next s). split; [lia|]. split; [exact Hm|]. split; [exact Hb|].
      intros NF. rewrite En. apply Hres. intros (rr & Hat & Hnull).
      assert (Hnull' : is_null s' (rr ++ [n])).
      { destruct Hnull as [K1 K2]. split; [exact K1|]. rewrite Esep, K2. apply (ex_null _ _ X). }
      apply NF in Hnull'. apply (ext_at s s' rr d X) in Hat. unfold at_names in Hat, Hnull'. rewrite tree_at_app, Hat in Hnull'. cbn in Hnull'.
      rewrite Enew in Hnull'. discriminate.
  - destruct (makedir_failed s _ mode e s' H W E) as [U Em].
    split; [intros k m t K; rewrite Em in K; apply (W k m t K)|]. split; [apply unseen_grown; assumption|]. left. eauto.
Qed.

Lemma there_spec p eo e s r s' : mkdir_there p eo e s = (r, s') ->
  s' = s /\ ((exists e', r = Err e') \/ (r = Ok tt /\ eo = true /\ exists o, resolve s p false = Ok o /\ S_ISDIR (o_mode (ob s o)) = true)).
Proof.
  unfold mkdir_there. destruct eo.
  - unfold bind, lift, raise, ret. unfold plib_is_dir, stat, stat_obj, resolve_arg, resolve_follow, resolve_any. fold (resolve s p false).
    destruct (resolve s p false) as [o|e1]; cbn [rbind].
    + destruct (if negb (is_root s) then _ else _) as [u|e1]; cbn [rbind].
      * destruct (raise_for_sep s p o true false) as [v|e1]; cbn [rbind].
        { cbn [stat_of ss_mode]. destruct (S_ISDIR (o_mode (ob s o))) eqn:D; intros K; injection K as <- <-; split; try reflexivity; [right|left; eauto].
          split; [reflexivity|]. split; [reflexivity|]. exists o. auto. }
        { destruct e1; try destruct (ignored_errno _); intros K; injection K as <- <-; split; eauto. }
      * destruct e1; try destruct (ignored_errno _); intros K; injection K as <- <-; split; eauto.
    + destruct e1; try destruct (ignored_errno _); intros K; injection K as <- <-; split; eauto.
  - unfold raise. intros K. injection K as <- <-. split; eauto.
Qed.

(** what a successful call leaves at the path: a directory it made, with the mode
    it was given, or (exist_ok) one that was there *)
Definition dir_at (s s' : fs) (names : list str) (mode : N) (eo : bool) : Prop :=
  exists o,
    (f_next s <= o /\ o_mode (ob s' o) = N.lor S_IFDIR (N.ldiff mode (f_umask s)) /\ o_body (ob s' o) = BDir [] /\
       (null_free s' -> resolve s' (abs_path (sepc s) names) false = Ok o)) \/
    (eo = true /\ resolve s' (abs_path (sepc s) names) false = Ok o /\ S_ISDIR (o_mode (ob s' o)) = true).
Definition ends (s s' : fs) (names : list str) (mode : N) (parents eo : bool) (r : res unit) : Prop :=
  (exists e, r = Err e /\ (parents = false -> unseen s s')) \/ (r = Ok tt /\ dir_at s s' names mode eo).

Lemma mkdir1_spec s names mode eo r s' : Ginv s -> within_limits s -> Forall (ordinary (sepc s)) names ->
  plib_mkdir1 (abs_path (sepc s) names) mode eo s = (r, s') ->
  Ginv s' /\ within_limits s' /\ grown s s' names /\ ends s s' names mode false eo r.
Proof.
  intros H W F E. unfold plib_mkdir1, catch in E. destruct (makedir (abs_path (sepc s) names) mode s) as [r1 s1] eqn:E1.
  destruct (one_mkdir s names mode r1 s1 H W F E1) as (H1 & W1 & G1 & [(e & -> & U)|(-> & o & Lo & Mo & Bo & Ro)]).
  - assert (K : s' = s1 /\ ((exists e', r = Err e') \/ (r = Ok tt /\ eo = true /\ exists o, resolve s1 (abs_path (sepc s) names) false = Ok o /\ S_ISDIR (o_mode (ob s1 o)) = true))).
    { destruct e as [[]| | | | | | | | | |]; try (apply (there_spec _ _ _ _ _ _ E)); unfold raise in E; injection E as <- <-; split; eauto. }
    destruct K as [-> K]. do 3 (split; [assumption|]). destruct K as [[e' ->]|(-> & -> & o & Ro & Do)].
    + left. eauto.
    + right. split; [reflexivity|]. exists o. right. auto.
  - injection E as <- <-. do 3 (split; [assumption|]). right. split; [reflexivity|]. exists o. left. auto.
Qed.

Lemma mkdir_rev_spec : forall rn s mode parents eo r s', Ginv s -> within_limits s -> Forall (ordinary (sepc s)) (rev rn) ->
  plib_mkdir_rev (sepc s) rn mode parents eo s = (r, s') ->
  Ginv s' /\ within_limits s' /\ grown s s' (rev rn) /\ ends s s' (rev rn) mode parents eo r.
Proof.
  induction rn as [|n up IH]; intros s mode parents eo r s' H W F E; cbn [plib_mkdir_rev] in E; unfold catch in E;
    destruct (makedir _ mode s) as [r1 s1] eqn:E1 in E;
    destruct (one_mkdir s _ mode r1 s1 H W F E1) as (H1 & W1 & G1 & [(e & -> & U)|(-> & o & Lo & Mo & Bo & Ro)]).
  - assert (K : s' = s1 /\ ((exists e', r = Err e') \/ (r = Ok tt /\ eo = true /\ exists o, resolve s1 (abs_path (sepc s) (rev [])) false = Ok o /\ S_ISDIR (o_mode (ob s1 o)) = true))).
    { destruct e as [[]| | | | | | | | | |]; try (apply (there_spec _ _ _ _ _ _ E)); try destruct parents; unfold raise in E; injection E as <- <-; split; eauto. }
    destruct K as [-> K]. do 3 (split; [assumption|]). destruct K as [[e' ->]|(-> & -> & o & Ro & Do)].
    + left. eauto.
    + right. split; [reflexivity|]. exists o. right. auto.
  - injection E as <- <-. do 3 (split; [assumption|]). right. split; [reflexivity|]. exists o. left. auto.
  - destruct (match e with OSErr ENOENT => parents | _ => false end) eqn:Ec.
    + assert (e = OSErr ENOENT /\ parents = true) as [-> ->] by (destruct e as [[]| | | | | | | | | |]; try discriminate; auto).
      pose proof (grown_sep _ _ _ G1) as S1.
      assert (Fup : Forall (ordinary (sepc s)) (rev up)) by (cbn [rev] in F; apply Forall_app in F; apply F).
      unfold bind in E. destruct (plib_mkdir_rev (sepc s) up 511 true true s1) as [r2 s2] eqn:E2.
      rewrite <- S1 in E2, Fup. destruct (IH s1 511%N true true r2 s2 H1 W1 Fup E2) as (H2 & W2 & G2 & D2).
      pose proof (grown_sep _ _ _ G2) as S2.
      assert (G02 : grown s s2 (rev up)).
      { apply (grown_trans s s1 s2 (rev up) (rev up) H H1); [exists []; rewrite app_nil_r; reflexivity| |exact G2].
        apply unseen_grown; try assumption. rewrite (gr_rest _ _ _ G1). reflexivity. }
      assert (Ext : exists z, rev (n :: up) = rev up ++ z) by (exists [n]; reflexivity).
      destruct r2 as [[]|e2].
      * rewrite <- S1, <- S2 in E, F. destruct (mkdir1_spec s2 _ mode eo r s' H2 W2 F E) as (H3 & W3 & G3 & D3).
        pose proof (grown_trans s s2 s' _ _ H H2 Ext G02 G3) as G. do 3 (split; [assumption|]).
        destruct D3 as [(e & -> & _)|(-> & o & D3)]; [left; exists e; split; [reflexivity|intros K; discriminate]|].
        right. split; [reflexivity|]. exists o. rewrite <- (grown_sep _ _ _ G02).
        destruct D3 as [(L & M & B & R)|D3]; [left|right; exact D3].
        split; [pose proof (gr_next _ _ _ G02); lia|]. split; [rewrite M; rewrite (gr_rest _ _ _ G02); reflexivity|]. auto.
      * injection E as <- <-. do 2 (split; [assumption|]). split.
        { destruct G02. constructor; try assumption. intros x m L. destruct (gr_ent0 x m L) as [K|(K & o & pre & rest & En & K2)]; [left; exact K|right].
          split; [exact K|]. exists o, pre, (rest ++ [n]). split; [cbn [rev]; rewrite En, <- app_assoc; reflexivity|exact K2]. }
        left. exists e2. split; [reflexivity|intros K; discriminate].
    + assert (K : s' = s1 /\ ((exists e', r = Err e') \/ (r = Ok tt /\ eo = true /\ exists o, resolve s1 (abs_path (sepc s) (rev (n :: up))) false = Ok o /\ S_ISDIR (o_mode (ob s1 o)) = true))).
      { destruct e as [[]| | | | | | | | | |]; try (apply (there_spec _ _ _ _ _ _ E)); cbn in Ec; try rewrite Ec in E; unfold raise in E; injection E as <- <-; split; eauto. }
      destruct K as [-> K]. do 3 (split; [assumption|]). destruct K as [[e' ->]|(-> & -> & o & Ro & Do)].
      * left. eauto.
      * right. split; [reflexivity|]. exists o. right. auto.
  - injection E as <- <-. do 3 (split; [assumption|]). right. split; [reflexivity|]. exists o. left. auto.
Qed.

(** ** The theorems *)

(** However Path("/names").mkdir(mode, parents, exist_ok) ends, nothing but missing
    directories of the path was made, and nothing at all if parents is false and
    the call fails. *)
Theorem C85_mkdir_effect : forall c s, linux_like c -> reachable c s -> within_limits s ->
  forall names mode parents exist_ok r s', Forall (ordinary (sepc s)) names ->
  plib_mkdir names mode parents exist_ok s = (r, s') ->
  grown s s' names /\ (forall e, r = Err e -> parents = false -> unseen s s').
Proof.
  intros c s Hc Hr W names mode parents eo r s' F E. destruct (reachable_GP c s Hc Hr) as [H _]. unfold plib_mkdir in E.
  destruct (mkdir_rev_spec (rev names) s mode parents eo r s' H W) as (_ & _ & G & D); [rewrite rev_involutive; exact F|exact E|].
  rewrite rev_involutive in G. split; [exact G|]. intros e -> Hp. destruct D as [(e2 & _ & D)|(K & _)]; [auto|discriminate].
Qed.
Print Assumptions C85_mkdir_effect.

(** If it succeeds the path is a directory: a new empty one with the mode given
    (the umask taken off), or one that was there, if exist_ok. *)
Theorem C85_mkdir_ok : forall c s, linux_like c -> reachable c s -> within_limits s ->
  forall names mode parents exist_ok s', Forall (ordinary (sepc s)) names -> null_free s' ->
  plib_mkdir names mode parents exist_ok s = (Ok tt, s') ->
  exists o, resolve s' (abs_path (sepc s) names) false = Ok o /\
    ((f_next s <= o /\ o_mode (ob s' o) = N.lor S_IFDIR (N.ldiff mode (f_umask s)) /\ o_body (ob s' o) = BDir []) \/
     (exist_ok = true /\ S_ISDIR (o_mode (ob s' o)) = true)).
Proof.
  intros c s Hc Hr W names mode parents eo s' F NF E. destruct (reachable_GP c s Hc Hr) as [H _]. unfold plib_mkdir in E.
  destruct (mkdir_rev_spec (rev names) s mode parents eo (Ok tt) s' H W) as (_ & _ & G & D); [rewrite rev_involutive; exact F|exact E|].
  destruct D as [(e & K & _)|(_ & o & D)]; [discriminate|]. rewrite rev_involutive in D. exists o.
  destruct D as [(L & M & B & R)|(Eo & R & D)]; [split; [apply R, NF|left; auto]|split; [exact R|right; auto]].
Qed.
Print Assumptions C85_mkdir_ok.

(** A path that exists (as anything): FileExistsError and nothing changes, unless
    exist_ok and it is a directory - then nothing changes either. *)
Theorem C85_mkdir_exists : forall c s, linux_like c -> reachable c s ->
  forall names mode parents exist_ok, names <> [] -> Forall (ordinary (sepc s)) names -> ~ is_null s names ->
  exists_ s (abs_path (sepc s) names) true = Ok true ->
  plib_mkdir names mode parents false s = (os_err EEXIST, s) /\
  (plib_is_dir s (abs_path (sepc s) names) = Ok true -> plib_mkdir names mode parents true s = (Ok tt, s)) /\
  (plib_is_dir s (abs_path (sepc s) names) = Ok false -> plib_mkdir names mode parents exist_ok s = (os_err EEXIST, s)).
Proof.
  intros c s Hc Hr names mode parents eo Hne F Hn Ex. destruct (reachable_GP c s Hc Hr) as [H _].
  pose proof (makedir_eexist s names mode H Hne F Hn Ex) as E. unfold plib_mkdir.
  assert (X : forall eo', plib_mkdir_rev (sepc s) (rev names) mode parents eo' s = mkdir_there (abs_path (sepc s) names) eo' (OSErr EEXIST) s).
  { intros eo'. destruct (rev names) as [|n up] eqn:Er; cbn [plib_mkdir_rev]; rewrite <- Er, rev_involutive; unfold catch; rewrite E; reflexivity. }
  rewrite !X. unfold mkdir_there. split; [reflexivity|]. split.
  - intros K. unfold bind, lift. rewrite K. reflexivity.
  - intros K. destruct eo; [|reflexivity]. unfold bind, lift. rewrite K. reflexivity.
Qed.
Print Assumptions C85_mkdir_exists.

Definition user_ops : list op := [Mkdir (L "/t") 511; Chmod (PStr (L "/t")) 511 true; Umask 511; SetUid 1000].
Definition user_state : fs := run fd_init user_ops.

Example C85_case :
  (* missing directories are made, the last one with the mode given *)
  (let r := plib_mkdir [L "d"; L "x"; L "y"] 448 true false tree_state in
   fst r = Ok tt /\ resolve (snd r) (L "/d/x") false = Ok (f_next tree_state) /\
   resolve (snd r) (L "/d/x/y") false = Ok (f_next tree_state + 1) /\
   o_mode (ob (snd r) (f_next tree_state)) = 16877%N /\ o_mode (ob (snd r) (f_next tree_state + 1)) = 16832%N) /\
  fst (plib_mkdir [L "d"; L "x"; L "y"] 448 false true tree_state) = Err (OSErr ENOENT) /\
  fst (plib_mkdir [L "d"; L "e"] 448 true true tree_state) = Ok tt /\
  fst (plib_mkdir [L "d"; L "e"] 448 true false tree_state) = Err (OSErr EEXIST) /\
  fst (plib_mkdir [L "d"; L "f"] 448 true true tree_state) = Err (OSErr EEXIST).
Proof. repeat split; vm_compute; reflexivity. Qed.

(** the root directory is there *)
Example C85_root_case : plib_mkdir [] 511 true true tree_state = (Ok tt, tree_state) /\
  fst (plib_mkdir [] 511 false false tree_state) = Err (OSErr EEXIST).
Proof. split; vm_compute; reflexivity. Qed.

(** unlike os.makedirs a call with parents may fail half way, and then leaves the
    directories it made (here the umask forbids everything) *)
Theorem C85_all_or_nothing_refuted : reachable posix_cfg user_state /\
  let r := plib_mkdir [L "t"; L "a"; L "b"] 511 true false user_state in
  fst r = Err (OSErr EACCES) /\ exists_ user_state (L "/t/a") false = Ok false /\ lresolve (snd r) (L "/t/a") <> os_err ENOENT.
Proof.
  split; [exists None, 18%N, 0%Z, 0%Z, 0%Z, user_ops; reflexivity|]. cbv zeta. split; [vm_compute; reflexivity|]. split; [vm_compute; reflexivity|].
  vm_compute. discriminate.
Qed.
Print Assumptions C85_all_or_nothing_refuted.
