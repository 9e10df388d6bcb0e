(** * C80: dir_fd *)
From Verif Require Export DirFdModel.
From Verif Require Import PathProofs PathProofs2 ResProofs ResProofs2 ResThm OpsThm MountThm TreeThm GraphInv GraphIo IoThm FdThm PropFd PropTree PropOps IoSess PropIo3.
From Coq Require Import Lia.
Import ListNotations.
Open Scope string_scope.
Open Scope list_scope.

(** [fd] is an open descriptor of the directory [d], which is now called [ds]
    (and not below a top-level directory with a name like [x:], see C16). *)
Definition open_dir (s : fs) (fd : Z) (ds : list str) (d : oid) : Prop :=
  (exists w, get_open_file s fd = Ok w /\ w_kind (wr s w) = WDirW /\ w_obj (wr s w) = d) /\
  at_names s ds = Some d /\ is_dirobj s d = true /\ (forall n r, ds = n :: r -> is_drive_name n = false).
(** the path [p], walked component by component from the directory [ds], leads to [names] *)
Definition names_from (s : fs) (ds : list str) (p : str) (names : list str) : Prop := walk_pos (sepc s) (rev ds) p = rev names.
(** the absolute path: the directory's path, a separator, the relative path *)
Definition below (s : fs) (ds : list str) (p : str) : str :=
  match ds with [] => sepc s :: p | _ => abs_path (sepc s) ds ++ sepc s :: p end.
(** [p] from [ds] stands for the name [n] in the directory [e] *)
Definition stands (s : fs) (ds : list str) (p : str) (n : str) (e : oid) : Prop :=
  exists pre, names_from s ds p (pre ++ [n]) /\ at_names s pre = Some e /\ is_dirobj s e = true /\
    ~ is_null s pre /\ (forall m r, pre = m :: r -> is_drive_name m = false).

Lemma isabs_linux s p : good s -> path_isabs (f_cfg s) p = is_abs (sepc s) p.
Proof.
  intros Hg. pose proof (gd_lin s Hg) as Hl. unfold path_isabs, starts_with_sep. rewrite (ll_win _ Hl), (ll_alt _ Hl), Bool.orb_false_r.
  unfold sep. destruct p as [|x p]; [reflexivity|]. cbn [starts_with is_abs]. rewrite Bool.andb_true_r. apply Ascii.eqb_sym.
Qed.
Lemma ends_char_abs sp n l : Forall (ordinary sp) (n :: l) -> ends_with_char sp (abs_path sp (n :: l)) = false.
Proof.
  intros H. destruct (@exists_last _ (n :: l) ltac:(discriminate)) as (a & m & E). rewrite E in *. clear E.
  assert (Hm : ordinary sp m) by (apply Forall_app in H; destruct H as [_ H]; inversion H; assumption). destruct Hm as (Hne & _ & _ & Hns).
  destruct (exists_last Hne) as (w & x & ->). destruct (ends_with_char sp (abs_path sp (a ++ [w ++ [x]]))) eqn:E; [|reflexivity]. exfalso.
  assert (exists q, abs_path sp (a ++ [w ++ [x]]) = q ++ [sp]) as [q Eq].
  { apply ends_with_char_spec in E. exact E. }
  assert (exists q', abs_path sp (a ++ [w ++ [x]]) = q' ++ [x]) as [q' Eq'].
  { unfold abs_path. destruct a as [|b a]; [exists (sp :: w); reflexivity|]. rewrite join_with_app by discriminate. exists (sp :: join_with [sp] (b :: a) ++ sp :: w).
    cbn [join_with app]. rewrite <- app_assoc. reflexivity. }
  rewrite Eq in Eq'. apply app_inj_tail in Eq'. destruct Eq' as [_ ->]. apply Hns, in_or_app. right. left. reflexivity.
Qed.
Lemma join_below s ds p : good s -> Forall (ordinary (sepc s)) ds -> is_abs (sepc s) p = false ->
  joinpaths (f_cfg s) [abs_path (sepc s) ds; p] = Some (below s ds p) /\ is_abs (sepc s) (below s ds p) = true /\
  walk_pos (sepc s) (walk_pos (sepc s) [] (f_cwd s)) (below s ds p) = walk_pos (sepc s) (rev ds) p.
Proof.
  intros Hg Ho Hp. pose proof (gd_lin s Hg) as Hl.
  pose proof (joinpaths_two _ (linux_like_posix _ Hl) (linux_like_abs _ Hl) (abs_path (sepc s) ds) p) as J. rewrite Hp in J.
  pose proof (walk_join _ (linux_like_abs _ Hl) (walk_pos (sepc s) [] (f_cwd s)) (abs_path (sepc s) ds) p ltac:(discriminate) Hp) as W.
  assert (E : (if nonempty (abs_path (sepc s) ds) && negb (ends_with_char (sepc s) (abs_path (sepc s) ds)) then abs_path (sepc s) ds ++ sepc s :: p else abs_path (sepc s) ds ++ p) = below s ds p).
  { destruct ds as [|n ds].
    - change (abs_path (sepc s) []) with [sepc s]. unfold ends_with_char. cbn. rewrite Ascii.eqb_refl. reflexivity.
    - rewrite (ends_char_abs _ _ _ Ho). reflexivity. }
  rewrite E in J, W. split; [exact J|]. split; [destruct ds; cbn; apply Ascii.eqb_refl|]. rewrite W. f_equal.
  unfold abs_path. rewrite (walk_abs_path (f_cfg s)), (den_ordinary (f_cfg s)) by (try exact Ho; intros w Hw; rewrite Forall_forall in Ho; destruct (Ho w Hw) as (A & _ & _ & B); auto).
  apply app_nil_r.
Qed.

(** ** The path *)
(** A relative path and the descriptor of a directory: the path made of the
    directory's present path and the relative one, which leads where the
    relative path leads from the directory.  All functions but os.lstat and
    os.remove take the argument. *)
Theorem C80_path_partial : forall c s fd ds d p f, linux_like c -> reachable c s -> open_dir s fd ds d -> is_abs (sepc s) p = false ->
  f <> FctLstat -> f <> FctRemove ->
  path_with_dir_fd s f (Some fd) (PStr p) = Ok (PStr (below s ds p)) /\
  is_abs (sepc s) (below s ds p) = true /\
  (forall names, names_of s (below s ds p) names <-> names_from s ds p names).
Proof.
  intros c s fd ds d p f Hl Hr ((w & Hw & Hk & Hd) & Ha & Hdir & Hdr) Hp F1 F2.
  pose proof (reachable_Ginv c s Hl Hr) as HG. pose proof (Ginv_good s HG) as Hg.
  assert (Hord := at_names_ordinary s HG ds root_oid d Ha).
  destruct (join_below s ds p Hg Hord Hp) as (J1 & J2 & J3). split; [|split; [exact J2|]].
  2:{ intros names. unfold names_of, names_from. rewrite J3. reflexivity. }
  unfold path_with_dir_fd. assert (Ef : supports_dir_fd f = true) by (destruct f; first [reflexivity|congruence]). rewrite Ef. cbn [negb].
  rewrite (isabs_linux s p Hg), Hp, Hw. cbn [rbind]. rewrite Hk, Hd.
  destruct (dir_path_s s HG ds d Ha Hdir Hdr) as (E & _). rewrite E. cbn [rbind]. rewrite J1. reflexivity.
Qed.
(** With an absolute path the descriptor does not matter. *)
Theorem C80_absolute : forall c s fd p f, linux_like c -> reachable c s -> is_abs (sepc s) p = true -> f <> FctLstat -> f <> FctRemove ->
  path_with_dir_fd s f (Some fd) (PStr p) = Ok (PStr p).
Proof.
  intros c s fd p f Hl Hr Hp F1 F2. pose proof (Ginv_good s (reachable_Ginv c s Hl Hr)) as Hg.
  unfold path_with_dir_fd. assert (Ef : supports_dir_fd f = true) by (destruct f; first [reflexivity|congruence]). rewrite Ef, (isabs_linux s p Hg), Hp. reflexivity.
Qed.
(** A descriptor that is not open is EBADF; a descriptor in place of the path is refused. *)
Theorem C80_bad : forall c s fd p f e, linux_like c -> reachable c s -> is_abs (sepc s) p = false -> f <> FctLstat -> f <> FctRemove ->
  get_open_file s fd = Err e -> path_with_dir_fd s f (Some fd) (PStr p) = Err e /\ forall n, path_with_dir_fd s f (Some fd) (PFd n) = Err ValueErr.
Proof.
  intros c s fd p f e Hl Hr Hp F1 F2 E. pose proof (Ginv_good s (reachable_Ginv c s Hl Hr)) as Hg.
  unfold path_with_dir_fd. assert (Ef : supports_dir_fd f = true) by (destruct f; first [reflexivity|congruence]). rewrite Ef, (isabs_linux s p Hg), Hp, E. split; reflexivity.
Qed.
(** The descriptor stays with the directory, whatever it is renamed to: calls that
    do not open or close do not change what a descriptor stands for. *)
Theorem C80_stays : forall o s fd ds ds' d, fd_call o = false -> open_dir s fd ds d ->
  at_names (snd (step o s)) ds' = Some d -> is_dirobj (snd (step o s)) d = true -> (forall n r, ds' = n :: r -> is_drive_name n = false) ->
  open_dir (snd (step o s)) fd ds' d.
Proof.
  intros o s fd ds ds' d Ho ((w & Hw & Hk & Hd) & _) Ha Hdir Hdr. pose proof (hs_step o Ho s) as H.
  split; [|auto]. exists w. destruct H as (E & _ & _ & Hst). pose proof (Hst w) as Hs.
  split; [unfold get_open_file in *; rewrite E; exact Hw|]. split; [unfold wstat in Hs; congruence|]. rewrite <- Hd. apply stat_obj', Hs.
Qed.

(** ** The calls *)
(** [c] with the paths that are taken relative to the descriptor replaced.
    (os.symlink: the text of the link, C80_symlink_refuted.) *)
Definition with_paths (f1 f2 : str -> str) (c : at_call) : at_call :=
  let g a := match a with PStr p => PStr (f1 p) | PFd n => PFd n end in
  match c with
  | AtOpen p fl m u => AtOpen (f1 p) fl m u
  | AtReadlink p => AtReadlink (f1 p)
  | AtStat a x => AtStat (g a) x
  | AtLstat a => AtLstat (g a)
  | AtRemove p => AtRemove (f1 p)
  | AtUnlink p => AtUnlink (f1 p)
  | AtRename a b x => AtRename (f1 a) (f2 b) x
  | AtRmdir p => AtRmdir (f1 p)
  | AtMkdir p m => AtMkdir (f1 p) m
  | AtAccess a m x => AtAccess (g a) m x
  | AtChmod a m x => AtChmod (g a) m x
  | AtUtime a t n x => AtUtime (g a) t n x
  | AtChown a u h x => AtChown (g a) u h x
  | AtMknod p m d => AtMknod (f1 p) m d
  | AtSymlink a b => AtSymlink (f1 a) b
  | AtLink a b => AtLink (f1 a) (f2 b)
  end.
Definition paths_of (c : at_call) : list parg :=
  match c with
  | AtStat a _ | AtLstat a | AtAccess a _ _ | AtChmod a _ _ | AtUtime a _ _ _ | AtChown a _ _ _ => [a]
  | AtOpen p _ _ _ | AtReadlink p | AtRemove p | AtUnlink p | AtRmdir p | AtMkdir p _ | AtMknod p _ _ | AtSymlink p _ => [PStr p]
  | AtRename a b _ | AtLink a b => [PStr a; PStr b]
  end.
Definition takes_dir_fd (c : at_call) : Prop := match c with AtLstat _ | AtRemove _ => False | _ => True end.
Lemma bind_ok {A B} (m : M A) (k : A -> M B) s x s1 : m s = (Ok x, s1) -> bind m k s = k x s1.
Proof. intros E. unfold bind. rewrite E. reflexivity. Qed.
Lemma lift_ok {A} (g : fs -> res A) s x : g s = Ok x -> lift g s = (Ok x, s).
Proof. intros E. unfold lift. rewrite E. reflexivity. Qed.
Lemma str_at_eq s f fd p q : path_with_dir_fd s f fd (PStr p) = Ok (PStr q) -> str_at f fd p s = (Ok q, s).
Proof. intros E. unfold str_at, arg_at, bind, lift. rewrite E. reflexivity. Qed.
(** the calls of the os functions without dir_fd *)
Definition the_call (k : at_call) : M answer :=
  match k with
  | AtOpen p fl m u => aout (step (OsOpen p fl m u))
  | AtReadlink p => fun s => (let* t := readlink s p in Ok (AText t), s)
  | AtStat a follow => fun s => (let* st := stat s a follow in Ok (AStat st), s)
  | AtLstat a => fun s => (let* st := stat s a false in Ok (AStat st), s)
  | AtRemove p | AtUnlink p => aout (step (Remove p))
  | AtRename a b force => aout (step (Rename a b force))
  | AtRmdir p => aout (step (Rmdir p))
  | AtMkdir p m => aout (step (Mkdir p m))
  | AtAccess a m follow => fun s => (let* r := access s a m follow in Ok (ABool r), s)
  | AtChmod a m follow => aout (step (Chmod a m follow))
  | AtUtime a t n follow => aout (step (Utime a t n follow))
  | AtChown a u g follow => aout (step (Chown a u g follow))
  | AtMknod p m d => aout (step (Mknod p m d))
  | AtSymlink src dst => aout (step (Symlink src dst))
  | AtLink src dst => aout (step (Link src dst))
  end.
Lemma without_dir_fd k s : call_at None None k s = the_call k s.
Proof.
  destruct k; try reflexivity; cbn [call_at the_call]; unfold str_at, arg_at, lift, bind, ret, rbind, gets; cbn [path_with_dir_fd].
  - destruct (readlink s p); reflexivity.
  - destruct (stat s a follow); reflexivity.
  - destruct (stat s a false); reflexivity.
  - destruct (access s a mode follow); reflexivity.
  - unfold mknod_checks, aout, bind, gets, ret. cbn [step]. unfold mknod, outm, bind, gets. cbv beta.
    destruct (c_win (f_cfg s)) eqn:E1; cbv beta iota; try rewrite E1; cbv beta iota; [reflexivity|].
    destruct (negb (device =? 0)%Z || negb (has_bit mode S_IFREG) && negb (is_root s)) eqn:E2; cbv beta iota; [reflexivity|]. rewrite E1. cbv beta iota. rewrite E2. reflexivity.
Qed.
(** Every call with descriptors is the call without them on the paths above. *)
Theorem C80_call_partial : forall c s fd1 ds1 d1 fd2 ds2 d2 k, linux_like c -> reachable c s -> open_dir s fd1 ds1 d1 -> open_dir s fd2 ds2 d2 ->
  takes_dir_fd k -> Forall (fun a => exists p, a = PStr p /\ is_abs (sepc s) p = false) (paths_of k) ->
  call_at (Some fd1) (Some fd2) k s = the_call (with_paths (below s ds1) (below s ds2) k) s.
Proof.
  intros c s fd1 ds1 d1 fd2 ds2 d2 k Hl Hr O1 O2 Ht Hk. rewrite <- without_dir_fd.
  assert (A1 : forall f p, is_abs (sepc s) p = false -> f <> FctLstat -> f <> FctRemove -> path_with_dir_fd s f (Some fd1) (PStr p) = Ok (PStr (below s ds1 p))).
  { intros f p Hp F1 F2. apply (C80_path_partial c s fd1 ds1 d1 p f Hl Hr O1 Hp F1 F2). }
  assert (A2 : forall f p, is_abs (sepc s) p = false -> f <> FctLstat -> f <> FctRemove -> path_with_dir_fd s f (Some fd2) (PStr p) = Ok (PStr (below s ds2 p))).
  { intros f p Hp F1 F2. apply (C80_path_partial c s fd2 ds2 d2 p f Hl Hr O2 Hp F1 F2). }
  assert (S1 : forall f p, is_abs (sepc s) p = false -> f <> FctLstat -> f <> FctRemove -> str_at f (Some fd1) p s = (Ok (below s ds1 p), s)) by (intros; apply str_at_eq; auto).
  assert (S2 : forall f p, is_abs (sepc s) p = false -> f <> FctLstat -> f <> FctRemove -> str_at f (Some fd2) p s = (Ok (below s ds2 p), s)) by (intros; apply str_at_eq; auto).
  assert (G1 : forall f p, is_abs (sepc s) p = false -> f <> FctLstat -> f <> FctRemove -> arg_at f (Some fd1) (PStr p) s = (Ok (PStr (below s ds1 p)), s)) by (intros; apply lift_ok; auto).
  assert (S0 : forall f p s, str_at f None p s = (Ok p, s)) by reflexivity.
  assert (G0 : forall f a s, arg_at f None a s = (Ok a, s)) by reflexivity.
  assert (GB : forall A B (m m' : M A) (h h' : A -> M B), m s = m' s -> (forall x t, m s = (Ok x, t) -> t = s /\ h x s = h' x s) -> bind m h s = bind m' h' s).
  { intros A B m m' h h' E K. unfold bind. rewrite <- E. destruct (m s) as [[x|e] t] eqn:Em; [|reflexivity]. destruct (K x t eq_refl) as [-> J]. exact J. }
  clear A1 A2.
  assert (Q1 : forall B f p (h : str -> M B), is_abs (sepc s) p = false -> f <> FctLstat -> f <> FctRemove -> bind (str_at f (Some fd1) p) h s = bind (str_at f None (below s ds1 p)) h s).
  { intros B f p h P1 P2 P3. rewrite (bind_ok _ _ _ _ _ (S1 f p P1 P2 P3)), (bind_ok _ _ _ _ _ (S0 f _ s)). reflexivity. }
  assert (Q3 : forall B f p (h : parg -> M B), is_abs (sepc s) p = false -> f <> FctLstat -> f <> FctRemove -> bind (arg_at f (Some fd1) (PStr p)) h s = bind (arg_at f None (PStr (below s ds1 p))) h s).
  { intros B f p h P1 P2 P3. rewrite (bind_ok _ _ _ _ _ (G1 f p P1 P2 P3)), (bind_ok _ _ _ _ _ (G0 f _ s)). reflexivity. }
  assert (Q12 : forall B f p q (h : str -> str -> M B), is_abs (sepc s) p = false -> is_abs (sepc s) q = false -> f <> FctLstat -> f <> FctRemove ->
    bind (str_at f (Some fd1) p) (fun x => bind (str_at f (Some fd2) q) (h x)) s = bind (str_at f None (below s ds1 p)) (fun x => bind (str_at f None (below s ds2 q)) (h x)) s).
  { intros B f p q h P1 P1' P2 P3. rewrite (bind_ok _ _ _ _ _ (S1 f p P1 P2 P3)), (bind_ok _ _ _ _ _ (S0 f _ s)), (bind_ok _ _ _ _ _ (S2 f q P1' P2 P3)), (bind_ok _ _ _ _ _ (S0 f _ s)). reflexivity. }
  assert (P : forall p l, Forall (fun a => exists q, a = PStr q /\ is_abs (sepc s) q = false) (PStr p :: l) -> is_abs (sepc s) p = false).
  { intros p l H. apply Forall_inv in H. destruct H as (q & E & H). injection E as ->. exact H. }
  assert (P' : forall a l, Forall (fun a => exists q, a = PStr q /\ is_abs (sepc s) q = false) (a :: l) -> exists p, a = PStr p /\ is_abs (sepc s) p = false).
  { intros a l H. apply Forall_inv in H. exact H. }
  destruct k; cbn [takes_dir_fd paths_of] in Ht, Hk; try contradiction; cbn [call_at with_paths].
  - apply Q1; try discriminate. apply (P _ _ Hk).
  - apply Q1; try discriminate. apply (P _ _ Hk).
  - destruct (P' _ _ Hk) as (p & -> & Hp). apply Q3; try discriminate. exact Hp.
  - apply Q1; try discriminate. apply (P _ _ Hk).
  - apply Q12; try discriminate; [apply (P _ _ Hk)|apply (P _ _ (Forall_inv_tail Hk))].
  - apply Q1; try discriminate. apply (P _ _ Hk).
  - apply Q1; try discriminate. apply (P _ _ Hk).
  - destruct (P' _ _ Hk) as (p & -> & Hp). apply Q3; try discriminate. exact Hp.
  - destruct (P' _ _ Hk) as (p & -> & Hp). apply Q3; try discriminate. exact Hp.
  - destruct (P' _ _ Hk) as (p & -> & Hp). apply Q3; try discriminate. exact Hp.
  - destruct (P' _ _ Hk) as (p & -> & Hp). apply Q3; try discriminate. exact Hp.
  - apply GB; [reflexivity|]. intros x t E. assert (t = s) as ->.
    { revert E. unfold mknod_checks, bind, gets, raise_os, raise, ret. destruct (c_win _); [discriminate|]. destruct (_ || _); [discriminate|]. intros [= _ H]. congruence. }
    split; [reflexivity|]. apply Q1; try discriminate. apply (P _ _ Hk).
  - apply Q1; try discriminate. apply (P _ _ Hk).
  - apply Q12; try discriminate; [apply (P _ _ Hk)|apply (P _ _ (Forall_inv_tail Hk))].
Qed.

(** ** What the calls do, by name *)
Lemma stands_place s ds p n e q pre' n' d' : Ginv s -> honest_dirs s -> stands s ds p n e ->
  (forall names, names_of s q names <-> names_from s ds p names) -> names_of s q (pre' ++ [n']) ->
  resolve s (abs_path (sepc s) pre') false = Ok d' -> n' = n /\ d' = e /\ at_names s pre' = Some e.
Proof.
  intros HG HH (pre & H1 & H2 & H3 & H4 & H5) Hq Hn Hd. apply Hq in Hn. unfold names_from in *. rewrite H1 in Hn.
  apply (f_equal (@rev _)) in Hn. rewrite !rev_involutive in Hn. apply app_inj_tail in Hn. destruct Hn as [<- <-].
  destruct (dir_path_s s HG pre e H2 H3 H5) as (_ & _ & K). rewrite (K HH H4) in Hd. injection Hd as <-. auto.
Qed.
Lemma aout_ok m s a s' : aout m s = (Ok a, s') -> exists o, m s = (Ok o, s') /\ a = AOut o.
Proof. unfold aout, bind, ret. destruct (m s) as [[o|e] t]; [|discriminate]. intros [= <- <-]. eauto. Qed.
Lemma outm_unit (m : M unit) s o s' : outm (fun _ => RUnit) m s = (Ok o, s') -> m s = (Ok tt, s').
Proof. unfold outm, bind, ret. destruct (m s) as [[[]|e] t]; [|discriminate]. intros [= _ <-]. reflexivity. Qed.
(** os.mkdir(p, mode, dir_fd=fd): one new empty directory, where [p] leads from the descriptor's directory *)
Theorem C80_mkdir_partial : forall c s fd ds d p n e mode a s', linux_like c -> reachable c s -> within_limits s -> honest_dirs s ->
  open_dir s fd ds d -> is_abs (sepc s) p = false -> stands s ds p n e ->
  call_at (Some fd) None (AtMkdir p mode) s = (Ok a, s') ->
  exists o, one_more s s' e n o /\ brand_new s s' e o /\ o_body (ob s' o) = BDir [] /\ o_mode (ob s' o) = N.lor S_IFDIR (N.ldiff mode (f_umask s)).
Proof.
  intros c s fd ds d p n e mode a s' Hl Hr HL HH HO Hp Hs E. pose proof (reachable_Ginv c s Hl Hr) as HG.
  destruct (C80_path_partial c s fd ds d p FctMkdir Hl Hr HO Hp ltac:(discriminate) ltac:(discriminate)) as (P1 & P2 & P3).
  cbn [call_at] in E. rewrite (bind_ok _ _ _ _ _ (str_at_eq _ _ _ _ _ P1)) in E. apply aout_ok in E. destruct E as (o & E & _). cbn [step] in E. apply outm_unit in E.
  destruct (C19_mkdir c s Hl Hr HL _ _ _ E) as (pre & n' & d' & x & (K1 & K2) & K3 & K4 & K5 & K6 & _).
  apply (resolve_true_false s _ _ (Ginv_good s HG)) in K2.
  destruct (stands_place s ds p n e _ _ _ _ HG HH Hs P3 K1 K2) as (-> & -> & _). eauto.
Qed.
(** os.unlink(p, dir_fd=fd): the name is gone, it was not a directory's *)
Theorem C80_unlink_partial : forall c s fd ds d p n e a s', linux_like c -> reachable c s -> null_free s -> honest_dirs s ->
  open_dir s fd ds d -> is_abs (sepc s) p = false -> stands s ds p n e -> not_null_path s (below s ds p) ->
  call_at (Some fd) None (AtUnlink p) s = (Ok a, s') ->
  exists x, is_dirobj s x = false /\ one_less s s' e n x /\ entry s' e n = None /\ (forall y m, ~ (y = e /\ m = n) -> entry s' y m = entry s y m).
Proof.
  intros c s fd ds d p n e a s' Hl Hr HN HH HO Hp Hs Hnn E. pose proof (reachable_Ginv c s Hl Hr) as HG.
  destruct (C80_path_partial c s fd ds d p FctUnlink Hl Hr HO Hp ltac:(discriminate) ltac:(discriminate)) as (P1 & P2 & P3).
  cbn [call_at] in E. rewrite (bind_ok _ _ _ _ _ (str_at_eq _ _ _ _ _ P1)) in E. apply aout_ok in E. destruct E as (o & E & _). cbn [step] in E. apply outm_unit in E.
  destruct (C20_remove c s Hl Hr HN HH _ Hnn _ _ E) as [(_ & e0 & K)|(_ & pre & n' & d' & x & K1 & K2 & K3 & K4 & K5 & K6 & _)]; [discriminate|].
  destruct (stands_place s ds p n e _ _ _ _ HG HH Hs P3 K1 K2) as (-> & -> & _). eauto.
Qed.
(** os.rmdir(p, dir_fd=fd): the name is gone, there was nothing below it *)
Theorem C80_rmdir_partial : forall c s fd ds d p n e a s', linux_like c -> reachable c s -> null_free s -> honest_dirs s ->
  open_dir s fd ds d -> is_abs (sepc s) p = false -> stands s ds p n e -> not_null_path s (below s ds p) ->
  call_at (Some fd) None (AtRmdir p) s = (Ok a, s') ->
  exists x, ents s x = [] /\ one_less s s' e n x /\ entry s' e n = None /\ (forall y m, ~ (y = e /\ m = n) -> entry s' y m = entry s y m).
Proof.
  intros c s fd ds d p n e a s' Hl Hr HN HH HO Hp Hs Hnn E. pose proof (reachable_Ginv c s Hl Hr) as HG.
  destruct (C80_path_partial c s fd ds d p FctRmdir Hl Hr HO Hp ltac:(discriminate) ltac:(discriminate)) as (P1 & P2 & P3).
  cbn [call_at] in E. rewrite (bind_ok _ _ _ _ _ (str_at_eq _ _ _ _ _ P1)) in E. apply aout_ok in E. destruct E as (o & E & _). cbn [step] in E. apply outm_unit in E.
  destruct (C21_rmdir c s Hl Hr HN _ Hnn _ _ E) as [(_ & e0 & K)|(_ & pre & n' & d' & x & K1 & K2 & K3 & K4 & K5 & K6 & _)]; [discriminate|].
  destruct (stands_place s ds p n e _ _ _ _ HG HH Hs P3 K1 K2) as (-> & -> & _). eauto.
Qed.
(** os.rename(p1, p2, src_dir_fd=fd1, dst_dir_fd=fd2): the entry is moved (or both name one object) *)
Theorem C80_rename_partial : forall c s fd1 ds1 d1 fd2 ds2 d2 p1 n1 e1 p2 n2 e2 force a s', linux_like c -> reachable c s -> honest_dirs s ->
  open_dir s fd1 ds1 d1 -> open_dir s fd2 ds2 d2 -> is_abs (sepc s) p1 = false -> is_abs (sepc s) p2 = false ->
  stands s ds1 p1 n1 e1 -> stands s ds2 p2 n2 e2 ->
  call_at (Some fd1) (Some fd2) (AtRename p1 p2 force) s = (Ok a, s') ->
  s' = s \/ exists o, moved s s' e1 n1 e2 n2 o.
Proof.
  intros c s fd1 ds1 d1 fd2 ds2 d2 p1 n1 e1 p2 n2 e2 force a s' Hl Hr HH O1 O2 Hp1 Hp2 S1 S2 E. pose proof (reachable_Ginv c s Hl Hr) as HG.
  destruct (C80_path_partial c s fd1 ds1 d1 p1 FctRename Hl Hr O1 Hp1 ltac:(discriminate) ltac:(discriminate)) as (P1 & P2 & P3).
  destruct (C80_path_partial c s fd2 ds2 d2 p2 FctRename Hl Hr O2 Hp2 ltac:(discriminate) ltac:(discriminate)) as (Q1 & Q2 & Q3).
  cbn [call_at] in E. rewrite (bind_ok _ _ _ _ _ (str_at_eq _ _ _ _ _ P1)), (bind_ok _ _ _ _ _ (str_at_eq _ _ _ _ _ Q1)) in E. apply aout_ok in E. destruct E as (o & E & _). cbn [step] in E. apply outm_unit in E.
  pose proof S1 as (pre1 & H1 & _). pose proof S2 as (pre2 & H2 & _). apply P3 in H1. apply Q3 in H2.
  assert (B : forall ds p, below s ds p <> []) by (intros [|? ?] ?; discriminate).
  destruct (C22_rename c s Hl Hr _ _ _ _ _ (B _ _) (B _ _) H1 H2 _ E) as [(-> & _)|(opre & n0 & npre & n & od & nd & x & J1 & J2 & J3 & J4 & J5 & _)]; [left; reflexivity|right].
  apply (resolve_true_false s _ _ (Ginv_good s HG)) in J3, J4. rewrite J1 in H1. rewrite J2 in H2.
  destruct (stands_place s ds1 p1 n1 e1 _ _ _ _ HG HH S1 P3 H1 J3) as (-> & -> & _).
  destruct (stands_place s ds2 p2 n2 e2 _ _ _ _ HG HH S2 Q3 H2 J4) as (-> & -> & _). eauto.
Qed.
(** a single name *)
Theorem C80_name : forall c s ds d n, linux_like c -> at_names s ds = Some d -> is_dirobj s d = true -> ~ is_null s ds ->
  (forall m r, ds = m :: r -> is_drive_name m = false) -> f_cfg s = c -> ordinary (sepc s) n ->
  stands s ds n n d /\ is_abs (sepc s) n = false.
Proof.
  intros c s ds d n Hl Ha Hd Hn Hdr Hc Ho. split.
  - exists ds. split; [|auto]. unfold names_from. rewrite rev_app_distr. cbn [rev app]. unfold walk_pos.
    destruct Ho as (A & B & C & D). destruct n as [|x n]; [congruence|]. assert (Hx : x <> sepc s) by (intros ->; apply D; left; reflexivity).
    cbn [is_abs]. destruct (Ascii.eqb_spec x (sepc s)) as [->|_]; [congruence|]. 
    rewrite (split_on_word (sepc s) (x :: n) D). cbn [fold_left]. apply (step_ordinary (f_cfg s)). exact (conj A (conj B (conj C D))).
  - destruct Ho as (A & B & C & D). destruct n as [|x n]; [reflexivity|]. cbn [is_abs]. apply Ascii.eqb_neq. intros ->. apply D. left. reflexivity.
Qed.

(** ** A case *)
(** a descriptor of /a, which was then renamed to /c *)
Definition c80_ops : list op :=
  [Mkdir (L "/a") 493; Mkdir (L "/a/b") 493; OsOpen (L "/a") 0 None []; Rename (L "/a") (L "/c") false; CreateFile (L "/c/f") 33188 (Some (L "x")) None true true].
Definition c80_state : fs := run fd_init c80_ops.
Lemma c80_dir : reachable posix_cfg c80_state /\ open_dir c80_state 3 [L "c"] 2.
Proof.
  split; [exists None, 18%N, 0%Z, 0%Z, 0%Z, c80_ops; reflexivity|].
  split; [exists 3; split; [|split]; vm_compute; reflexivity|]. split; [vm_compute; reflexivity|]. split; [vm_compute; reflexivity|].
  intros n r [= <- <-]. reflexivity.
Qed.
Lemma c80_honest : honest_dirs c80_state /\ within_limits c80_state /\ null_free c80_state /\ not_null_path c80_state (below c80_state [L "c"] (L "f")).
Proof.
  split. { intros o. do 6 (destruct o as [|o]; [vm_compute; reflexivity|]). vm_compute. reflexivity. }
  split. { apply c43_free. vm_compute. reflexivity. }
  split. { apply null_free_intro; [apply (reachable_Ginv posix_cfg _ posix_cfg_linux (proj1 c80_dir))|vm_compute; reflexivity| |vm_compute; reflexivity]. vm_compute. intuition discriminate. }
  apply (not_null_names _ _ [L "c"; L "f"]); [vm_compute; reflexivity|]. intros [_ K]. vm_compute in K. discriminate K.
Qed.
Example C80_case : linux_like posix_cfg /\ path_with_dir_fd c80_state FctMkdir (Some 3%Z) (PStr (L "b/../n")) = Ok (PStr (L "/c/b/../n")) /\
  stands c80_state [L "c"] (L "b/../n") (L "n") 2 /\ stands c80_state [L "c"] (L "f") (L "f") 2 /\ stands c80_state [L "c"] (L "b") (L "b") 2 /\
  fst (call_at (Some 3%Z) None (AtMkdir (L "b/../n") 448) c80_state) = Ok (AOut RUnit) /\
  at_names (snd (call_at (Some 3%Z) None (AtMkdir (L "b/../n") 448) c80_state)) [L "c"; L "n"] = Some 5 /\
  fst (call_at (Some 3%Z) None (AtUnlink (L "f")) c80_state) = Ok (AOut RUnit) /\
  fst (call_at (Some 3%Z) None (AtRmdir (L "b")) c80_state) = Ok (AOut RUnit) /\
  fst (call_at (Some 3%Z) (Some 3%Z) (AtRename (L "f") (L "b/g") false) c80_state) = Ok (AOut RUnit) /\
  path_with_dir_fd c80_state FctStat (Some 9%Z) (PStr (L "f")) = os_err EBADF.
Proof.
  split; [apply posix_cfg_linux|]. split; [vm_compute; reflexivity|].
  assert (S : forall p n, names_from c80_state [L "c"] p [L "c"; n] -> stands c80_state [L "c"] p n 2).
  { intros p n H. exists [L "c"]. split; [exact H|]. split; [vm_compute; reflexivity|]. split; [vm_compute; reflexivity|]. split; [intros [_ K]; vm_compute in K; discriminate K|]. intros m r [= <- <-]. reflexivity. }
  split; [apply S; vm_compute; reflexivity|]. split; [apply S; vm_compute; reflexivity|]. split; [apply S; vm_compute; reflexivity|].
  split; [vm_compute; reflexivity|]. split; [vm_compute; reflexivity|]. split; [vm_compute; reflexivity|]. split; [vm_compute; reflexivity|]. split; vm_compute; reflexivity.
Qed.

(** ** What does not hold *)
(** os.symlink with dir_fd changes the text of the link, and makes the link in the current directory *)
Theorem C80_symlink_refuted : exists s', call_at (Some 3%Z) None (AtSymlink (L "t") (L "l")) c80_state = (Ok (AOut RUnit), s') /\
  at_names s' [L "c"; L "l"] = None /\ readlink s' (L "/l") = Ok (L "/c/t").
Proof. eexists. split; [apply pair_eq; vm_compute; reflexivity|]. split; vm_compute; reflexivity. Qed.
(** os.lstat and os.remove do not take the argument, although the real ones do *)
Theorem C80_unsupported_refuted : forall s fd p, fst (call_at (Some fd) None (AtLstat (PStr p)) s) = Err NotImpl /\ fst (call_at (Some fd) None (AtRemove p) s) = Err NotImpl.
Proof. intros s fd p. split; reflexivity. Qed.
(** a descriptor of a removed directory leads into the next one of that name *)
Theorem C80_removed_refuted : exists s st, s = run fd_init [Mkdir (L "/a") 493; OsOpen (L "/a") 0 None []; Rmdir (L "/a"); Mkdir (L "/a") 493; CreateFile (L "/a/f") 33188 None None true true] /\
  get_open_file s 3 = Ok 3 /\ Some (w_obj (wr s 3)) <> at_names s [L "a"] /\ fst (call_at (Some 3%Z) None (AtStat (PStr (L "f")) true) s) = Ok (AStat st).
Proof. eexists _, _. split; [reflexivity|]. split; [vm_compute; reflexivity|]. split; [vm_compute; discriminate|]. vm_compute. reflexivity. Qed.
(** the empty path is the directory itself, not ENOENT *)
Theorem C80_empty_refuted : exists st, fst (call_at (Some 3%Z) None (AtStat (PStr []) true) c80_state) = Ok (AStat st) /\
  fst (call_at None None (AtStat (PStr []) true) c80_state) = Err (OSErr ENOENT).
Proof. eexists. split; vm_compute; reflexivity. Qed.
(** in a directory called like a drive nothing is found, unless the root is the current directory *)
Theorem C80_drive_refuted : exists s, s = run fd_init [Mkdir (L "/x:") 493; CreateFile (L "/x:/f") 33188 None None true true; OsOpen (L "/x:") 0 None []; Mkdir (L "/d") 493; Chdir (PStr (L "/d"))] /\
  at_names s [L "x:"] = Some 2 /\ w_obj (wr s 3) = 2 /\ get_open_file s 3 = Ok 3 /\ at_names s [L "x:"; L "f"] = Some 3 /\
  fst (call_at (Some 3%Z) None (AtStat (PStr (L "f")) true) s) = Err (OSErr ENOENT).
Proof. eexists. split; [reflexivity|]. split; [vm_compute; reflexivity|]. split; [vm_compute; reflexivity|]. split; [vm_compute; reflexivity|]. split; vm_compute; reflexivity. Qed.

Print Assumptions C80_path_partial.
Print Assumptions C80_absolute.
Print Assumptions C80_bad.
Print Assumptions C80_stays.
Print Assumptions C80_call_partial.
Print Assumptions C80_mkdir_partial.
Print Assumptions C80_unlink_partial.
Print Assumptions C80_rmdir_partial.
Print Assumptions C80_rename_partial.
Print Assumptions C80_name.
Print Assumptions C80_symlink_refuted.
Print Assumptions C80_unsupported_refuted.
Print Assumptions C80_removed_refuted.
Print Assumptions C80_empty_refuted.
Print Assumptions C80_drive_refuted.
