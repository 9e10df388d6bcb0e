(** * Lemmas for C74: add_real_directory, one leaf after the other *)
From Verif Require Export AddRealTree.
From Verif Require Import TreeThm PropTree PropOps.
From Verif Require Limits Gen.

(** ** The order in which the leaves of a real tree are added *)
Definition is_rlink (t : rtree) : bool := match t with RLink _ => true | _ => false end.
Definition is_rfile (t : rtree) : bool := match t with RFile _ _ => true | _ => false end.
Definition under (rel : list str) (es : list (str * rtree)) : list (list str * rtree) := map (fun e => (rel ++ [fst e], snd e)) es.
Definition links_of (rel : list str) (es : list (str * rtree)) := under rel (filter (fun e => is_rlink (snd e)) es).
Definition files_of (rel : list str) (es : list (str * rtree)) := under rel (filter (fun e => is_rfile (snd e)) es).
Definition leaves_of (b : list str * list (str * rtree)) := links_of (fst b) (snd b) ++ files_of (fst b) (snd b).
Definition order (t : rtree) : list (list str * rtree) := flat_map leaves_of (real_walk [] t).

Lemma in_links rel es r l : In (r, l) (links_of rel es) <-> exists n, r = rel ++ [n] /\ In (n, l) es /\ is_rlink l = true.
Proof.
  unfold links_of, under. rewrite in_map_iff. split.
  - intros ((n & t) & E & K). cbn in E. injection E as <- <-. apply filter_In in K. destruct K as [K1 K2]. eauto.
  - intros (n & -> & K1 & K2). exists (n, l). split; [reflexivity|]. apply filter_In. auto.
Qed.
Lemma in_files rel es r l : In (r, l) (files_of rel es) <-> exists n, r = rel ++ [n] /\ In (n, l) es /\ is_rfile l = true.
Proof.
  unfold files_of, under. rewrite in_map_iff. split.
  - intros ((n & t) & E & K). cbn in E. injection E as <- <-. apply filter_In in K. destruct K as [K1 K2]. eauto.
  - intros (n & -> & K1 & K2). exists (n, l). split; [reflexivity|]. apply filter_In. auto.
Qed.
Lemma in_leaves rel es r l : In (r, l) (leaves_of (rel, es)) <-> exists n, r = rel ++ [n] /\ In (n, l) es /\ leaf l = true.
Proof.
  unfold leaves_of. cbn [fst snd]. rewrite in_app_iff, in_links, in_files. split.
  - intros [(n & E & K & L)|(n & E & K & L)]; exists n; (split; [exact E|]; split; [exact K|]); destruct l; try discriminate; reflexivity.
  - intros (n & E & K & L). destruct l; [right|left|discriminate]; exists n; auto.
Qed.
Lemma order_only t r l : real_tree t -> In (r, l) (order t) ->
  at_tree t r = Some l /\ leaf l = true /\ exists q n st es, r = q ++ [n] /\ at_tree t q = Some (RDir st es).
Proof.
  intros W K. apply in_flat_map in K. destruct K as ((rel & es) & K1 & K2). apply in_leaves in K2. destruct K2 as (n & -> & K2 & K3).
  destruct (real_walk_only t [] rel es W K1) as (q & st & E & Eq). cbn in E. subst q.
  destruct (W rel st es Eq) as [Nd _]. split; [|split; [exact K3|exists rel, n, st, es; auto]].
  rewrite at_tree_app, Eq. cbn. rewrite (assoc_NoDup n l es Nd K2). reflexivity.
Qed.
Lemma order_all t r l : at_tree t r = Some l -> leaf l = true -> r <> [] -> In (r, l) (order t).
Proof.
  intros E Hl Hr. destruct (exists_last Hr) as (q & n & ->). rewrite at_tree_app in E. destruct (at_tree t q) as [t'|] eqn:Eq; [|discriminate].
  cbn in E. destruct t' as [| |st es]; try discriminate. destruct (assoc n es) as [l'|] eqn:Ea; [|discriminate]. injection E as ->.
  apply in_flat_map. exists (q, es). split; [apply (real_walk_all q t [] st es Eq)|]. apply in_leaves. exists n. split; [reflexivity|]. split; [apply assoc_In, Ea|exact Hl].
Qed.
Lemma nodup_app2 {A} (l1 l2 : list A) : NoDup l1 -> NoDup l2 -> (forall x, In x l1 -> ~ In x l2) -> NoDup (l1 ++ l2).
Proof.
  intros N1 N2 H. induction N1 as [|a l Ha N1 IH]; [exact N2|]. cbn. constructor.
  - rewrite in_app_iff. intros [K|K]; [contradiction|]. apply (H a); [left; reflexivity|exact K].
  - apply IH. intros x K. apply H. right. exact K.
Qed.
Lemma nodup_flat {A B} (f : A -> list B) l : NoDup l -> (forall a, In a l -> NoDup (f a)) ->
  (forall a b x, In a l -> In b l -> In x (f a) -> In x (f b) -> a = b) -> NoDup (flat_map f l).
Proof.
  intros Nd. induction Nd as [|a l Hn Nd IH]; intros H1 H2; [constructor|]. cbn [flat_map]. apply nodup_app2.
  - apply H1. left. reflexivity.
  - apply IH; [intros b K; apply H1; right; exact K|]. intros b c x Kb Kc. apply H2; right; assumption.
  - intros x K1 K2. apply in_flat_map in K2. destruct K2 as (b & K2 & K3). apply Hn. rewrite (H2 a b x); [exact K2|left; reflexivity|right; exact K2|exact K1|exact K3].
Qed.

Lemma same_fst {A B} (l : list (A * B)) k x y : NoDup (map fst l) -> In (k, x) l -> In (k, y) l -> x = y.
Proof.
  induction l as [|[a b] l IH]; [intros _ []|]. cbn [map fst]. intros Nd K1 K2. apply NoDup_cons_iff in Nd. destruct Nd as [Hn Nd].
  assert (X : forall z, In (k, z) l -> In k (map fst l)) by (intros z K; change k with (fst (k, z)); apply in_map, K).
  destruct K1 as [K1|K1], K2 as [K2|K2].
  - congruence.
  - injection K1 as -> ->. exfalso. apply Hn, (X y K2).
  - injection K2 as -> ->. exfalso. apply Hn, (X x K1).
  - apply IH; assumption.
Qed.
Lemma nodup_filter {A B} (f : A * B -> bool) l : NoDup (map fst l) -> NoDup (map fst (filter f l)).
Proof.
  induction l as [|[a b] l IH]; [constructor|]. cbn [map fst filter]. intros Nd. apply NoDup_cons_iff in Nd. destruct Nd as [Hn Nd].
  destruct (f (a, b)); [|apply IH, Nd]. cbn [map fst]. constructor; [|apply IH, Nd]. intros K. apply Hn. apply in_map_iff in K.
  destruct K as (e & <- & K). apply filter_In in K. apply in_map, K.
Qed.
Lemma under_nodup rel es : NoDup (map fst es) -> NoDup (map fst (under rel es)).
Proof.
  intros Nd. unfold under. rewrite map_map. cbn [fst]. induction es as [|[n t] es IH]; [constructor|]. cbn [map fst] in *.
  apply NoDup_cons_iff in Nd. destruct Nd as [Hn Nd]. constructor; [|apply IH, Nd]. intros K. apply Hn. apply in_map_iff in K.
  destruct K as (e & K1 & K2). apply app_inj_tail in K1. destruct K1 as [_ <-]. apply in_map, K2.
Qed.
Lemma map_flat_map {A B C} (g : B -> C) (f : A -> list B) l : map g (flat_map f l) = flat_map (fun a => map g (f a)) l.
Proof. induction l as [|a l IH]; [reflexivity|]. cbn. rewrite map_app, IH. reflexivity. Qed.
Lemma real_walk_nodup t : forall rel, real_tree t -> NoDup (map fst (real_walk rel t)).
Proof.
  induction t as [st d|x|st es IH] using rtree_ind'; intros rel W; [constructor|constructor|].
  rewrite real_walk_dir. cbn [map fst]. destruct (W [] st es eq_refl) as [Nd _]. constructor.
  - rewrite map_flat_map. intros K. apply in_flat_map in K. destruct K as ((n & t') & K1 & K2). cbn [fst snd] in K2.
    apply in_map_iff in K2. destruct K2 as ((r & es') & E & K2). cbn in E. subst r.
    destruct (real_tree_sub _ n t' st es W eq_refl K1) as [_ W']. destruct (real_walk_only t' _ _ _ W' K2) as (q & _ & E & _).
    rewrite <- app_assoc in E. rewrite <- (app_nil_r rel) in E at 1. apply app_inv_head in E. discriminate.
  - rewrite map_flat_map. apply nodup_flat.
    + apply NoDup_map_inv in Nd. exact Nd.
    + intros (n & t') K. cbn [fst snd]. destruct (real_tree_sub _ n t' st es W eq_refl K) as [_ W']. apply (IH n t' K), W'.
    + intros (n & t1) (m & t2) x K1 K2 X1 X2. cbn [fst snd] in *. apply in_map_iff in X1, X2.
      destruct X1 as ((r1 & e1) & E1 & X1), X2 as ((r2 & e2) & E2 & X2). cbn in E1, E2. subst r1 r2.
      destruct (real_tree_sub _ n t1 st es W eq_refl K1) as [_ W1]. destruct (real_tree_sub _ m t2 st es W eq_refl K2) as [_ W2].
      destruct (real_walk_only t1 _ _ _ W1 X1) as (q1 & _ & E1 & _). destruct (real_walk_only t2 _ _ _ W2 X2) as (q2 & _ & E2 & _).
      rewrite E1, <- !app_assoc in E2. apply app_inv_head in E2. cbn in E2. injection E2 as -> _.
      f_equal. apply (same_fst es m t1 t2 Nd K1 K2).
Qed.
Lemma order_nodup t : real_tree t -> NoDup (map fst (order t)).
Proof.
  intros W. unfold order. rewrite map_flat_map. assert (Nw := real_walk_nodup t [] W). apply nodup_flat.
  - apply NoDup_map_inv in Nw. exact Nw.
  - intros (rel & es) K. destruct (real_walk_only t [] rel es W K) as (q & st & _ & Eq). destruct (W q st es Eq) as [Nd _].
    unfold leaves_of, links_of, files_of. cbn [fst snd]. rewrite map_app. apply nodup_app2.
    + apply under_nodup, nodup_filter, Nd.
    + apply under_nodup, nodup_filter, Nd.
    + intros x K1 K2. apply in_map_iff in K1, K2. destruct K1 as ((r1 & l1) & E1 & K1), K2 as ((r2 & l2) & E2 & K2). cbn in E1, E2. subst r1 r2.
      apply in_links in K1. apply in_files in K2. destruct K1 as (n & -> & K1 & L1), K2 as (m & E & K2 & L2). apply app_inj_tail in E. destruct E as [_ <-].
      rewrite (same_fst es n l1 l2 Nd K1 K2) in L1. destruct l2; discriminate.
  - intros (r1 & e1) (r2 & e2) x K1 K2 X1 X2. apply in_map_iff in X1, X2. destruct X1 as ((a1 & l1) & E1 & X1), X2 as ((a2 & l2) & E2 & X2). cbn in E1, E2. subst a1 a2.
    apply in_leaves in X1, X2. destruct X1 as (n & -> & _), X2 as (m & E & _). apply app_inj_tail in E. destruct E as [<- _].
    f_equal. apply (same_fst _ r1 e1 e2 Nw K1 K2).
Qed.

(** ** Names of the paths that are passed on *)
Lemma host_names s T rel n : sepc s = slash -> Forall (ordinary slash) (T ++ rel ++ [n]) ->
  names_of s (host_join (host_join (abs_path slash T) (host_rel rel)) n) (T ++ rel ++ [n]).
Proof.
  intros Hs Fo. apply Forall_app in Fo. destruct Fo as [FT Fo]. apply Forall_app in Fo. destruct Fo as [Fr Fn]. assert (On := Forall_inv Fn).
  assert (HJ : forall pos a b, a <> [] -> is_abs slash b = false -> walk_pos slash pos (host_join a b) = walk_pos slash (walk_pos slash pos a) b).
  { intros pos a b Ha Hb. pose proof (walk_join posix_cfg posix_cfg_abs pos a b Ha Hb) as K. cbn [c_sep posix_cfg] in K. rewrite <- K. unfold host_join.
    destruct a as [|x a]; [contradiction|]. cbn [nonempty andb]. destruct (ends_with_char slash (x :: a)); reflexivity. }
  assert (An : forall w, ordinary slash w -> is_abs slash w = false).
  { intros [|x w] (A & _ & _ & B); [reflexivity|]. cbn. destruct (Ascii.eqb_spec x slash) as [->|]; [|reflexivity]. exfalso. apply B. left. reflexivity. }
  assert (Cl : forall l, Forall (ordinary slash) l -> forall w, In w l -> w <> [] /\ ~ In slash w).
  { intros l Fl w K. rewrite Forall_forall in Fl. destruct (Fl w K) as (A & _ & _ & B). auto. }
  assert (Ar : is_abs slash (host_rel rel) = false).
  { destruct rel as [|w rel]; [reflexivity|]. assert (K := An w (Forall_inv Fr)). destruct (Forall_inv Fr) as (Kn & _). destruct w as [|x w]; [contradiction|].
    cbn [host_rel]. destruct rel; exact K. }
  assert (Ej : host_join (abs_path slash T) (host_rel rel) <> []).
  { unfold host_join. destruct (ends_with_char slash _); discriminate. }
  unfold names_of. rewrite Hs. rewrite HJ by (first [exact Ej|apply An, On]). rewrite HJ by (first [discriminate|exact Ar]).
  unfold abs_path. pose proof (walk_abs_path posix_cfg (walk_pos slash [] (f_cwd s)) T (Cl T FT)) as K1. cbn [c_sep posix_cfg] in K1. rewrite K1. clear K1.
  rewrite (den_ordinary posix_cfg [] T FT), app_nil_r.
  assert (K2 : walk_pos slash (rev T) (host_rel rel) = rev (T ++ rel)).
  { destruct rel as [|w rel]; [rewrite app_nil_r; reflexivity|]. cbn [host_rel].
    pose proof (walk_rel_path posix_cfg (rev T) w rel (Cl _ Fr)) as K. cbn [c_sep posix_cfg] in K. rewrite K.
    rewrite (den_ordinary posix_cfg _ _ Fr), rev_app_distr. reflexivity. }
  rewrite K2. pose proof (walk_rel_path posix_cfg (rev (T ++ rel)) n [] (Cl _ Fn)) as K. cbn [c_sep posix_cfg join_with] in K. rewrite K.
  rewrite (den_ordinary posix_cfg _ _ Fn). rewrite <- rev_app_distr, <- app_assoc. reflexivity.
Qed.

(** ** What the loop has done so far *)
(** the object [x] is a copy of the real file or link [l] *)
Definition leaf_is (ro : bool) (s : fs) (x : oid) (l : rtree) : Prop :=
  match l with
  | RFile st data =>
      o_mode (ob s x) = (if ro then N.land (r_mode st) 261924 else r_mode st) /\ o_body (ob s x) = BFile (Some data) /\
      o_size (ob s x) = r_size st /\ o_uid (ob s x) = r_uid st /\ o_gid (ob s x) = r_gid st /\
      o_atime (ob s x) = r_atime st /\ o_mtime (ob s x) = r_mtime st /\ o_ctime (ob s x) = r_ctime st /\ o_nlink (ob s x) = 1%Z
  | RLink text => o_mode (ob s x) = N.lor S_IFLNK PERM_DEF /\ o_body (ob s x) = BFile (Some text) /\ o_nlink (ob s x) = 1%Z
  | RDir _ _ => False
  end.
Lemma leaf_is_body ro s x l : leaf_is ro s x l -> is_dirobj s x = false.
Proof. unfold is_dirobj. destruct l as [st data|text|]; [intros (_ & E & _)|intros (_ & E & _)|intros []]; rewrite E; reflexivity. Qed.
Lemma leaf_is_same ro s s' x l : ob s' x = ob s x -> leaf_is ro s x l -> leaf_is ro s' x l.
Proof. intros E K. unfold leaf_is. rewrite E. exact K. Qed.
(** the same but for the entries (and the link count) *)
Definition but_entries (a b : fobj) : Prop := forall es k, wo_nlink (wo_body a (BDir es)) k = wo_nlink (wo_body b (BDir es)) k.

Section Built.
Variables (b : fs) (T : list str) (o : oid) (t : rtree) (ro : bool).
Hypothesis Wt : real_tree t.

Record built (s : fs) (done : list (list str * rtree)) : Prop := {
  bu_inv : Ginv s;
  bu_lim : within_limits s;
  bu_ext : ext b s;
  bu_next : f_next b <= f_next s;
  bu_top : at_names s T = Some o;
  bu_topd : is_dirobj s o = true;
  bu_topo : but_entries (ob s o) (ob b o);
  bu_old : forall x, x < f_next b -> x <> o -> ob s x = ob b x;
  bu_leaf : forall r l, In (r, l) done -> exists x, at_names s (T ++ r) = Some x /\ leaf_is ro s x l;
  bu_only : forall r x, at_names s (T ++ r) = Some x -> (r = [] /\ x = o) \/
    (f_next b <= x /\ exists r2 l, In (r ++ r2, l) done /\ (r2 = [] \/ (r2 <> [] /\ is_dirobj s x = true /\ o_mode (ob s x) = N.lor S_IFDIR PERM_DEF)));
  bu_rest : s = set_mounts (set_ino (set_next (set_heap b (f_heap s)) (f_next s)) (f_ino s)) (f_mounts s)
}.

Lemma built_dirs s done rel st es : built s done ->
  (forall r l, In (r, l) done -> at_tree t r = Some l /\ leaf l = true) -> at_tree t rel = Some (RDir st es) ->
  forall q q2 x, T ++ rel = q ++ q2 -> at_names s q = Some x -> is_dirobj s x = true.
Proof.
  intros B Hd Er q q2 x E K. destruct (app_eq_app _ _ _ _ E) as (z & [[Ez E2]|[Ez E2]]).
  - destruct (at_prefix_dirs s T o (bu_inv _ _ B) (bu_top _ _ B) (bu_topd _ _ B) q z Ez) as (y & K1 & K2). congruence.
  - subst q. destruct (bu_only _ _ B z x K) as [[_ ->]|(_ & r2 & l & Hin & [->|(_ & K2 & _)])]; [apply (bu_topd _ _ B)| |exact K2].
    rewrite app_nil_r in Hin. destruct (Hd z l Hin) as [Hz Hl]. rewrite E2, at_tree_app, Hz in Er. destruct l; try discriminate; destruct q2; discriminate.
Qed.
Lemma dirobj_nolink s x : Ginv s -> is_dirobj s x = true -> is_link s x = false.
Proof. intros H K. unfold is_link. apply has_ifdir_not_link, (gi_dirbit s H x K). Qed.
Lemma built_linkfree s done rel st es : built s done ->
  (forall r l, In (r, l) done -> at_tree t r = Some l /\ leaf l = true) -> at_tree t rel = Some (RDir st es) ->
  forall a m l y, ~ meets_link s (T ++ rel) a m l y.
Proof.
  intros B Hd Er a m l y (E & K1 & K2). rewrite (dirobj_nolink s l (bu_inv _ _ B)) in K2; [discriminate|].
  apply (built_dirs s done rel st es B Hd Er (a ++ [m]) y l); [rewrite <- app_assoc; exact E|exact K1].
Qed.

(** making the directories above a leaf *)
Record dirs_ready (s s1 : fs) (rel : list str) : Prop := {
  dr_next : f_next s <= f_next s1;
  dr_fw : forall q x, at_names s q = Some x -> at_names s1 q = Some x;
  dr_bw : forall q x, at_names s1 q = Some x -> at_names s q = Some x \/
     (f_next s <= x /\ is_dirobj s1 x = true /\ o_mode (ob s1 x) = N.lor S_IFDIR PERM_DEF /\ exists r r2, r <> [] /\ q = T ++ r /\ rel = r ++ r2);
  dr_obj : forall x, x < f_next s -> ob s1 x = ob s x \/
     (is_dirobj s x = true /\ is_dirobj s1 x = true /\ but_entries (ob s1 x) (ob s x) /\ (x = o \/ f_next b <= x));
  dr_rest : s1 = set_ino (set_next (set_heap s (f_heap s1)) (f_next s1)) (f_ino s1)
}.
Lemma parents_ready s s1 done rel st es : built s done ->
  (forall r l, In (r, l) done -> at_tree t r = Some l /\ leaf l = true) -> at_tree t rel = Some (RDir st es) ->
  parents s s1 (T ++ rel) -> dirs_ready s s1 rel.
Proof.
  intros B Hd Er [->|(a & n & rest & d & E & Hdd & DM & Hat)].
  { constructor; auto. destruct s; reflexivity. }
  specialize (Hat (built_linkfree s done rel st es B Hd Er)). assert (H := bu_inv _ _ B).
  destruct (dm_top _ _ _ _ _ DM n rest eq_refl) as [Hw D].
  (* the first new directory is below the top *)
  assert (exists r1, a = T ++ r1 /\ rel = r1 ++ n :: rest) as (r1 & -> & Erel).
  { destruct (app_eq_app _ _ _ _ E) as (z & [[Ez E2]|[Ez E2]]); [|eauto].
    destruct z as [|m z]; [rewrite app_nil_r in Ez; cbn in E2; exists []; rewrite app_nil_r; auto|].
    exfalso. cbn in E2. injection E2 as <- ->. assert (K := bu_top _ _ B). rewrite Ez in K.
    replace (a ++ n :: z) with ((a ++ [n]) ++ z) in K by (rewrite <- app_assoc; reflexivity).
    unfold at_names in K. rewrite tree_at_app in K. rewrite tree_at_app in K. fold (at_names s a) in K. rewrite Hat in K. cbn in K.
    rewrite Hw in K. discriminate. }
  destruct (dirs_made_paths s s1 d n rest _ _ H Hdd DM Hat) as [Fw Bw].
  assert (Hdo : d = o \/ f_next b <= d) by (destruct (bu_only _ _ B r1 d Hat) as [[_ K]|[K _]]; auto).
  constructor.
  - rewrite (dm_next _ _ _ _ _ DM). lia.
  - exact Fw.
  - intros q x K. destruct (Bw q x K) as [K1|(k & Hk & -> & ->)]; [left; exact K1|right].
    assert (exists nk, nth_error (n :: rest) k = Some nk) as [nk Hnk].
    { destruct (nth_error (n :: rest) k) eqn:En; [eauto|]. apply nth_error_None in En. cbn in En. lia. }
    destruct (dm_new _ _ _ _ _ DM k nk Hnk) as (Hb & _ & Hm & _). split; [lia|]. split; [unfold is_dirobj; rewrite Hb; reflexivity|].
    split; [exact Hm|]. exists (r1 ++ n :: firstn k rest), (skipn k rest). split; [destruct r1; discriminate|]. split; [rewrite <- app_assoc; reflexivity|].
    rewrite Erel, <- app_assoc. f_equal. cbn. f_equal. symmetry. apply firstn_skipn.
  - intros x Hx. destruct (Nat.eq_dec x d) as [->|Ne]; [right|left; apply (dm_old _ _ _ _ _ DM x Hx Ne)].
    split; [exact Hdd|]. split; [unfold is_dirobj; rewrite D; reflexivity|]. split; [rewrite D; intros es' k'; reflexivity|exact Hdo].
  - apply (dm_rest _ _ _ _ _ DM).
Qed.

Lemma ready_at s s1 done rel st es d : built s done -> Ginv s1 ->
  (forall r l, In (r, l) done -> at_tree t r = Some l /\ leaf l = true) -> at_tree t rel = Some (RDir st es) ->
  dirs_ready s s1 rel -> Forall (ordinary (sepc s1)) (T ++ rel) -> is_dirobj s1 d = true ->
  resolve s1 (abs_path (sepc s1) (T ++ rel)) true = Ok d -> at_names s1 (T ++ rel) = Some d.
Proof.
  intros B H1 Hd Er R Fo Hdd Hr.
  assert (Hlf : forall a m l y, ~ meets_link s1 (T ++ rel) a m l y).
  { intros a m l y (E & K1 & K2). rewrite (dirobj_nolink s1 l H1) in K2; [discriminate|].
    destruct (dr_bw _ _ _ R _ _ K1) as [K3|(_ & K3 & _)]; [|exact K3].
    assert (Hl : is_dirobj s l = true).
    { apply (built_dirs s done rel st es B Hd Er (a ++ [m]) y l); [rewrite <- app_assoc; exact E|exact K3]. }
    destruct (dr_obj _ _ _ R l (at_names_lt s _ l (bu_inv _ _ B) K3)) as [K4|(_ & K4 & _)]; [|exact K4]. unfold is_dirobj in *. rewrite K4. exact Hl. }
  unfold resolve in Hr. apply (resolve_ok s1 (Ginv_good s1 H1)) in Hr. destruct Hr as (rr & E & Hc & [[_ ->]|(_ & Hat & _)]).
  { rewrite (gi_null s1 H1) in Hdd. discriminate. }
  apply (rp_names s1 H1 (T ++ rel) rr Fo Hc) in E. destruct E as [_ E].
  rewrite (resolved_det s1 (Ginv_good s1 H1) _ _ _ (linkfree_resolved s1 (T ++ rel) Hlf) E). exact Hat.
Qed.

Lemma built_step s s1 s' done rel n l d st es : built s done ->
  (forall r l, In (r, l) done -> at_tree t r = Some l /\ leaf l = true) -> at_tree t rel = Some (RDir st es) ->
  parents s s1 (T ++ rel) -> Ginv s1 -> ext s s1 -> Forall (ordinary (sepc s1)) (T ++ rel) ->
  resolve s1 (abs_path (sepc s1) (T ++ rel)) true = Ok d -> one_more s1 s' d n (f_next s1) -> f_next s' = S (f_next s1) ->
  Ginv s' -> within_limits s' -> leaf_is ro s' (f_next s1) l -> built s' (done ++ [(rel ++ [n], l)]).
Proof.
  intros B Hd Er P H1 X Fo Hr OM Nx H' W' Lf. assert (R := parents_ready s s1 done rel st es B Hd Er P).
  assert (Hdd := om_isdir _ _ _ _ _ OM). assert (Hat := ready_at s s1 done rel st es d B H1 Hd Er R Fo Hdd Hr).
  destruct (one_more_paths s1 s' d n (T ++ rel) H1 OM Hat (leaf_is_body _ _ _ _ Lf)) as (Fw & New & Bw).
  rewrite <- app_assoc in New, Bw. assert (H := bu_inv _ _ B).
  assert (Hlt : forall q x, at_names s q = Some x -> x < f_next s) by (intros q x; apply (at_names_lt s q x H)).
  assert (N1 := dr_next _ _ _ R). assert (N0 := bu_next _ _ B).
  (* old objects *)
  assert (Ob : forall x, x < f_next s -> ob s' x = ob s x \/
     (is_dirobj s x = true /\ is_dirobj s' x = true /\ but_entries (ob s' x) (ob s x) /\ (x = o \/ f_next b <= x))).
  { intros x Hx. destruct (Nat.eq_dec x d) as [->|Ne].
    - right. assert (is_dirobj s d = true).
      { destruct (dr_obj _ _ _ R d Hx) as [K|(K & _)]; [unfold is_dirobj in *; rewrite <- K; exact Hdd|exact K]. }
      split; [assumption|]. split; [unfold is_dirobj; rewrite (om_dir _ _ _ _ _ OM); reflexivity|]. split.
      + rewrite (om_dir _ _ _ _ _ OM). destruct (dr_obj _ _ _ R d Hx) as [K|(_ & _ & K & _)]; [rewrite K; intros e k; reflexivity|]. intros e k. exact (K e k).
      + destruct (dr_bw _ _ _ R _ _ Hat) as [K|[K _]]; [|lia]. destruct (bu_only _ _ B rel d K) as [[_ K2]|[K2 _]]; auto.
    - assert (E : ob s' x = ob s1 x) by (apply (om_other _ _ _ _ _ OM); [exact Ne|lia]).
      unfold is_dirobj. rewrite E. apply (dr_obj _ _ _ R x Hx). }
  assert (Hol : o < f_next s) by apply (Hlt T o (bu_top _ _ B)).
  assert (Df : forall x, x < f_next s -> is_dirobj s x = true -> is_dirobj s' x = true /\ o_mode (ob s' x) = o_mode (ob s x)).
  { intros x Hx K. destruct (Ob x Hx) as [E|(_ & K1 & K2 & _)]; [unfold is_dirobj in *; rewrite E; auto|].
    split; [exact K1|]. specialize (K2 [] 0%Z). apply (f_equal o_mode) in K2. exact K2. }
  constructor.
  - exact H'.
  - exact W'.
  - assert (X2 := one_more_new_ext s1 s' d n H1 OM). assert (X0 := bu_ext _ _ B).
    assert (A0 : forall q x, at_names b q = Some x -> at_names s q = Some x).
    { intros q. induction q as [|m q IH] using rev_ind; intros x K; [exact K|]. apply at_names_snoc_inv in K. destruct K as (e & K1 & K2).
      rewrite (at_names_snoc s q m e (IH e K1)). apply (ex_ent _ _ X0 _ _ _ K2). }
    constructor.
    + rewrite (ex_cfg _ _ X0), (ex_cfg _ _ X). apply X2.
    + rewrite (ex_cwd _ _ X0), (ex_cwd _ _ X). apply X2.
    + rewrite (ex_uid _ _ X0), (ex_uid _ _ X). apply X2.
    + rewrite (ex_null _ _ X0), (ex_null _ _ X). apply X2.
    + intros e m x K. apply (ex_ent _ _ X2), (ex_ent _ _ X), (ex_ent _ _ X0), K.
    + intros q x K. rewrite (ex_mode _ _ X2 q x (dr_fw _ _ _ R q x (A0 q x K))), (ex_mode _ _ X q x (A0 q x K)). apply (ex_mode _ _ X0 q x K).
    + intros q x data K E. apply (ex_file _ _ X2 q x data (dr_fw _ _ _ R q x (A0 q x K))), (ex_file _ _ X q x data (A0 q x K)), (ex_file _ _ X0 q x data K E).
  - lia.
  - apply Fw, (dr_fw _ _ _ R), (bu_top _ _ B).
  - apply (Df o Hol), (bu_topd _ _ B).
  - destruct (Ob o Hol) as [E|(_ & _ & K & _)]; [rewrite E; apply (bu_topo _ _ B)|]. intros e k. rewrite (K e k). apply (bu_topo _ _ B).
  - intros x Hx Ne. destruct (Ob x ltac:(lia)) as [E|(_ & _ & _ & [K|K])]; [rewrite E; apply (bu_old _ _ B x Hx Ne)|contradiction|lia].
  - intros r l' K. apply in_app_iff in K. destruct K as [K|[K|[]]].
    + destruct (bu_leaf _ _ B r l' K) as (x & K1 & K2). exists x. split; [apply Fw, (dr_fw _ _ _ R), K1|].
      assert (Hx := Hlt _ x K1). destruct (Ob x Hx) as [E|(K3 & _)]; [apply (leaf_is_same ro s s' x l' E K2)|].
      rewrite (leaf_is_body _ _ _ _ K2) in K3. discriminate.
    + injection K as <- <-. exists (f_next s1). split; [exact New|exact Lf].
  - intros r x K. destruct (Bw _ _ K) as [K1|[E ->]].
    + destruct (dr_bw _ _ _ R _ _ K1) as [K2|(Hx & Hxd & Hxm & r' & r2 & Hne & Eq & Erel)].
      * destruct (bu_only _ _ B r x K2) as [K3|(K3 & r2 & l' & Hin & K4)]; [left; exact K3|right]. split; [exact K3|]. exists r2, l'.
        split; [apply in_app_iff; left; exact Hin|]. destruct K4 as [K4|(K4 & K5 & K6)]; [left; exact K4|right]. split; [exact K4|].
        destruct (Df x (Hlt _ x K2) K5) as [K7 K8]. rewrite K8. auto.
      * right. apply app_inv_head in Eq. subst r'. split; [lia|]. exists (r2 ++ [n]), l. split; [apply in_app_iff; right; left; rewrite Erel, app_assoc; reflexivity|].
        right. split; [destruct r2; discriminate|]. destruct (Nat.eq_dec x d) as [->|Ne].
        -- split; [unfold is_dirobj; rewrite (om_dir _ _ _ _ _ OM); reflexivity|]. rewrite (om_dir _ _ _ _ _ OM). exact Hxm.
        -- assert (x <> f_next s1) by (pose proof (at_names_lt s1 _ x H1 K1); lia).
           unfold is_dirobj. rewrite (om_other _ _ _ _ _ OM x Ne) by assumption. auto.
    + right. apply app_inv_head in E. subst r. split; [lia|]. exists [], l. rewrite app_nil_r. split; [apply in_app_iff; right; left; reflexivity|left; reflexivity].
  - rewrite (om_rest _ _ _ _ _ OM). rewrite (dr_rest _ _ _ R) at 1. rewrite (bu_rest _ _ B) at 1. reflexivity.
Qed.

Hypothesis Hb : sepc b = slash.
Lemma built_sep s done : built s done -> sepc s = slash.
Proof. intros B. rewrite <- (ex_cfg _ _ (bu_ext _ _ B)). exact Hb. Qed.
Lemma names_same s p a c : names_of s p a -> names_of s p c -> a = c.
Proof. unfold names_of. intros A C. rewrite A in C. apply (f_equal (@rev str)) in C. rewrite !rev_involutive in C. exact C. Qed.

Definition leaf_path (rel : list str) (n : str) : str := host_join (host_join (abs_path slash T) (host_rel rel)) n.

Lemma file_step s s' done rel n d st data es x : built s done ->
  (forall r l, In (r, l) done -> at_tree t r = Some l /\ leaf l = true) -> at_tree t rel = Some (RDir d es) ->
  Forall (ordinary slash) (T ++ rel ++ [n]) ->
  add_real_file (leaf_path rel n) st data ro s = (Ok x, s') -> built s' (done ++ [(rel ++ [n], RFile st data)]).
Proof.
  intros B Hd Er Fo E. assert (Hs := built_sep s done B).
  pose proof (wp_elim _ _ _ _ _ (wp_add_real_file s (leaf_path rel n) st data ro (bu_inv _ _ B) (bu_lim _ _ B) Hs) E) as K. cbv beta in K.
  destruct K as (H' & W' & [(e & s1 & K & _)|(s1 & pre & m & dd & x' & RF & _)]); [discriminate|].
  destruct RF as [H1 X Ec Nm P Hr Hdm Ex OM Nx Mo Bo Sz [I1 I2] (T1 & T2 & T3) Nl _ _ _]. subst x'.
  assert (En := names_same s _ _ _ Nm (host_names s T rel n Hs Fo)). rewrite app_assoc in En. apply app_inj_tail in En. destruct En as [-> ->].
  assert (Hs1 : sepc s1 = slash) by (rewrite Ec; exact Hs). rewrite app_assoc in Fo. apply Forall_app in Fo. destruct Fo as [Fo _].
  apply (built_step s s1 s' done rel n (RFile st data) dd d es B Hd Er P H1 X); try assumption.
  - rewrite Hs1. exact Fo.
  - rewrite Ec. exact Hr.
  - cbn. repeat split; assumption.
Qed.

Lemma link_step s s' done rel n d text es x : built s done ->
  (forall r l, In (r, l) done -> at_tree t r = Some l /\ leaf l = true) -> at_tree t rel = Some (RDir d es) ->
  at_tree t (rel ++ [n]) = Some (RLink text) -> ~ In (rel ++ [n]) (map fst done) ->
  Forall (ordinary slash) (T ++ rel ++ [n]) ->
  add_real_symlink (leaf_path rel n) text s = (Ok x, s') -> built s' (done ++ [(rel ++ [n], RLink text)]).
Proof.
  intros B Hd Er El Hni Fo E. assert (Hs := built_sep s done B). assert (H := bu_inv _ _ B). assert (Hg := Ginv_good s H).
  assert (H' : Ginv s') by (pose proof (create_symlink_pres (leaf_path rel n) text true s H) as K; unfold add_real_symlink in E; rewrite E in K; exact K).
  assert (W' : within_limits s').
  { pose proof (Gen.gn_create_symlink _ _ _ (Gen.fp_core _ _ _ _ Limits.rl_prims) (leaf_path rel n) text true s (bu_lim _ _ B)) as K.
    unfold add_real_symlink in E. rewrite E in K. exact K. }
  assert (Nm0 := host_names s T rel n Hs Fo). fold (leaf_path rel n) in Nm0.
  assert (Hp : leaf_path rel n <> []) by (unfold leaf_path, host_join; destruct (ends_with_char slash _); destruct (ends_with_char slash _); discriminate).
  assert (Fos : Forall (ordinary (sepc s)) (T ++ rel ++ [n])) by (rewrite Hs; exact Fo).
  assert (Hlf : forall a m l y, ~ meets_link s (T ++ rel ++ [n]) a m l y).
  { intros a m l y (Ea & K1 & K2). destruct (list_eq_dec (list_eq_dec ascii_dec) y []) as [->|Hy].
    - rewrite <- Ea in K1. destruct (bu_only _ _ B _ _ K1) as [[K _]|(_ & r2 & l' & Hin & _)]; [destruct rel; discriminate|].
      destruct (Hd _ _ Hin) as [K3 K4]. rewrite at_tree_app, El in K3. destruct r2 as [|w r2]; [|discriminate].
      rewrite app_nil_r in Hin. apply Hni. change (rel ++ [n]) with (fst (rel ++ [n], l')). apply in_map, Hin.
    - destruct (exists_last Hy) as (y' & w & ->). rewrite app_assoc in Ea. change (a ++ m :: y' ++ [w]) with (a ++ (m :: y') ++ [w]) in Ea.
      rewrite (app_assoc a) in Ea. apply app_inj_tail in Ea. destruct Ea as [Ea _].
      apply (built_linkfree s done rel d es B Hd Er a m l y'). split; [exact Ea|split; assumption]. }
  assert (Go : forall q, names_of s q (T ++ rel ++ [n]) ->
    create_file_internally q (N.lor S_IFLNK PERM_DEF) (Some (make_string_path (f_cfg s) text)) None true false s = (Ok x, s') ->
    built s' (done ++ [(rel ++ [n], RLink text)])).
  { intros q Nq Eq. pose proof (wp_elim _ _ _ _ _ (wp_make s q _ _ _ _ H (bu_lim _ _ B) Hs) Eq) as K. cbv beta in K.
    destruct K as [(e & s1 & K & _)|(o' & K & M & _)]; [discriminate|]. injection K as <-.
    destruct M as (s1 & pre & m & dd & Nm & P & Hr & OM & BN & Mo & Bo & _ & Nl & _ & H1 & X).
    assert (En := names_same s _ _ _ Nm Nq). rewrite app_assoc in En. apply app_inj_tail in En. destruct En as [-> ->].
    destruct (bn_new _ _ _ _ BN) as [Ex Nx]. subst x.
    assert (Ec := ex_cfg _ _ X). assert (Hs1 : sepc s1 = slash) by (rewrite <- Ec; exact Hs).
    rewrite app_assoc in Fo. apply Forall_app in Fo. destruct Fo as [Fo' _].
    apply (built_step s s1 s' done rel n (RLink text) dd d es B Hd Er P H1 X); try assumption.
    - rewrite Hs1. exact Fo'.
    - rewrite <- Ec. exact Hr.
    - cbn. cbv iota in Mo. split; [exact Mo|]. split; [|exact Nl]. rewrite Bo. rewrite make_string_path_slash by exact Hs. reflexivity. }
  revert E. unfold add_real_symlink, create_symlink. unfold bind at 1. unfold gets at 1. cbv zeta.
  rewrite (normcase_id _ (linux_like_posix _ (gi_lin s H))). rewrite (make_string_path_slash _ (leaf_path rel n)) by exact Hs.
  rewrite (Ginv_win s H), (Ginv_mac s H).
  set (p := leaf_path rel n) in *.
  match goal with |- bind ?m _ s = _ -> _ => assert (Hm : wp m s (fun r s1 => s1 = s)) end.
  { destruct (ends_with_path_separator (f_cfg s) p); [|wstep; auto].
    wstep. destruct (exists_ s p false) as [[|]|e]; [wstep; reflexivity| |reflexivity].
    wstep. destruct (exists_ s _ false) as [[|]|e]; cbn [negb when]; [wstep; reflexivity| |reflexivity].
    wstep. destruct (exists_ s _ true) as [[|]|e]; cbn [negb]; try wstep; reflexivity. }
  match goal with |- bind ?m ?k s = _ -> _ => destruct (m s) as [r1 s1] eqn:E1; unfold wp in Hm; rewrite E1 in Hm; cbn [fst snd] in Hm; subst s1;
    unfold bind at 1; rewrite E1 end.
  destruct r1 as [u|e]; [|discriminate]. clear E1.
  unfold bind at 1. unfold lift at 1. destruct (islink s p) as [[|]|e]; [| |discriminate].
  - unfold bind at 1. unfold ret at 1. intros E. apply (Go p Nm0 E).
  - unfold bind at 1. unfold lift at 1. destruct (resolve_path s p) as [q|e] eqn:Eq; [|discriminate].
    intros E. apply (Go q); [|exact E]. pose proof Eq as Eq'. unfold resolve_path in Eq'. apply (resolve_path_ok s Hg) in Eq'.
    destruct Eq' as (_ & _ & names & rr & Fn & Ea & Rs & ->).
    assert (names = T ++ rel ++ [n]) by (apply (names_same s p); [apply anp_names_of; assumption|exact Nm0]). subst names.
    rewrite <- (resolved_det s Hg _ _ _ (linkfree_resolved s _ Hlf) Rs). apply anp_names_of; [exact Hg|discriminate|exact Fos|].
    apply anp_abs_path; [exact Hg|exact Fos].
Qed.
End Built.

(** ** The loops *)
Lemma incl_app_l {A} (a b c : list A) : incl (a ++ b) c -> incl a c.
Proof. intros K x Hx. apply K, in_app_iff. left. exact Hx. Qed.

Section Loops.
Variables (b : fs) (T : list str) (o : oid) (t : rtree) (ro : bool).
Hypothesis Wt : real_tree t.
Hypothesis Hb : sepc b = slash.
Hypothesis HT : Forall (ordinary slash) T.
Notation built := (built b T o ro).

Lemma rel_ordinary rel x : real_tree t -> at_tree t rel = Some x -> Forall (ordinary slash) rel.
Proof.
  revert x. induction rel as [|n rel IH] using rev_ind; intros x W E; [constructor|]. rewrite at_tree_app in E.
  destruct (at_tree t rel) as [u|] eqn:Eu; [|discriminate]. apply Forall_app. split; [apply (IH u W eq_refl)|].
  cbn in E. destruct u as [| |st es]; try discriminate. destruct (assoc n es) as [y|] eqn:Ea; [|discriminate].
  destruct (W rel st es Eu) as [_ F]. rewrite Forall_forall in F. constructor; [|constructor]. apply F. change n with (fst (n, y)). apply in_map, assoc_In, Ea.
Qed.
Lemma in_order done : incl done (order t) -> forall r l, In (r, l) done -> at_tree t r = Some l /\ leaf l = true.
Proof. intros K r l Hin. destruct (order_only t r l Wt (K _ Hin)) as (A & B & _). auto. Qed.
Lemma entry_at rel st es n l : at_tree t rel = Some (RDir st es) -> In (n, l) es -> at_tree t (rel ++ [n]) = Some l /\ Forall (ordinary slash) (T ++ rel ++ [n]).
Proof.
  intros E Hin. destruct (Wt rel st es E) as [Nd _]. assert (K : at_tree t (rel ++ [n]) = Some l) by (rewrite at_tree_app, E; cbn; rewrite (assoc_NoDup n l es Nd Hin); reflexivity).
  split; [exact K|]. apply Forall_app. split; [exact HT|]. apply (rel_ordinary _ _ Wt K).
Qed.

Lemma links_loop rel st es done s' : at_tree t rel = Some (RDir st es) ->
  incl (done ++ links_of rel es) (order t) -> NoDup (map fst (done ++ links_of rel es)) ->
  forall es2 es1 s, es = es1 ++ es2 -> built s (done ++ links_of rel es1) ->
  add_real_links (host_join (abs_path slash T) (host_rel rel)) es2 s = (Ok tt, s') -> built s' (done ++ links_of rel es).
Proof.
  intros Er Hi Nd es2. induction es2 as [|[n l] es2 IH]; intros es1 s E B K.
  - cbn in K. injection K as <-. rewrite app_nil_r in E. subst es1. exact B.
  - assert (E' : es = (es1 ++ [(n, l)]) ++ es2) by (rewrite <- app_assoc; exact E).
    assert (El : links_of rel (es1 ++ [(n, l)]) = links_of rel es1 ++ links_of rel [(n, l)]).
    { unfold links_of, under. rewrite filter_app, map_app. reflexivity. }
    assert (Hin : In (n, l) es) by (rewrite E; apply in_app_iff; right; left; reflexivity).
    destruct (entry_at rel st es n l Er Hin) as [Ea Fo].
    unfold add_real_links in K. cbn [each fst snd] in K. unfold bind at 1 in K.
    destruct l as [st' data|text|st' es'].
    + unfold ret at 1 in K. apply (IH (es1 ++ [(n, RFile st' data)]) s E'); [|exact K]. rewrite El, app_nil_r. exact B.
    + destruct (add_real_symlink (host_join (host_join (abs_path slash T) (host_rel rel)) n) text s) as [[x|e] s2] eqn:E2;
        unfold bind in K; rewrite E2 in K; [|discriminate]. unfold ret at 1 in K.
      apply (IH (es1 ++ [(n, RLink text)]) s2 E'); [|exact K]. rewrite El, app_assoc.
      assert (Es : links_of rel es = links_of rel es1 ++ (rel ++ [n], RLink text) :: links_of rel es2).
      { rewrite E. unfold links_of, under. rewrite filter_app, map_app. reflexivity. }
      apply (link_step b T o t ro Hb s s2 (done ++ links_of rel es1) rel n st text es x B); try assumption.
      * apply in_order. intros y Hy. apply Hi. rewrite Es, app_assoc. apply in_app_iff. left. exact Hy.
      * rewrite Es, app_assoc, map_app in Nd. cbn [map fst] in Nd. intros Ky. apply NoDup_remove_2 in Nd. apply Nd, in_app_iff. left. exact Ky.
    + unfold ret at 1 in K. apply (IH (es1 ++ [(n, RDir st' es')]) s E'); [|exact K]. rewrite El, app_nil_r. exact B.
Qed.

Lemma files_loop rel st es done s' : at_tree t rel = Some (RDir st es) ->
  incl (done ++ files_of rel es) (order t) ->
  forall es2 es1 s, es = es1 ++ es2 -> built s (done ++ files_of rel es1) ->
  add_real_files (host_join (abs_path slash T) (host_rel rel)) ro es2 s = (Ok tt, s') -> built s' (done ++ files_of rel es).
Proof.
  intros Er Hi es2. induction es2 as [|[n l] es2 IH]; intros es1 s E B K.
  - cbn in K. injection K as <-. rewrite app_nil_r in E. subst es1. exact B.
  - assert (E' : es = (es1 ++ [(n, l)]) ++ es2) by (rewrite <- app_assoc; exact E).
    assert (El : files_of rel (es1 ++ [(n, l)]) = files_of rel es1 ++ files_of rel [(n, l)]).
    { unfold files_of, under. rewrite filter_app, map_app. reflexivity. }
    assert (Hin : In (n, l) es) by (rewrite E; apply in_app_iff; right; left; reflexivity).
    destruct (entry_at rel st es n l Er Hin) as [Ea Fo].
    unfold add_real_files in K. cbn [each fst snd] in K. unfold bind at 1 in K.
    destruct l as [st' data|text|st' es'].
    + destruct (add_real_file (host_join (host_join (abs_path slash T) (host_rel rel)) n) st' data ro s) as [[x|e] s2] eqn:E2;
        unfold bind in K; rewrite E2 in K; [|discriminate]. unfold ret at 1 in K.
      apply (IH (es1 ++ [(n, RFile st' data)]) s2 E'); [|exact K]. rewrite El, app_assoc.
      assert (Es : files_of rel es = files_of rel es1 ++ (rel ++ [n], RFile st' data) :: files_of rel es2).
      { rewrite E. unfold files_of, under. rewrite filter_app, map_app. reflexivity. }
      apply (file_step b T o t ro Hb s s2 (done ++ files_of rel es1) rel n st st' data es x B); try assumption.
      apply in_order. intros y Hy. apply Hi. rewrite Es, app_assoc. apply in_app_iff. left. exact Hy.
    + unfold ret at 1 in K. apply (IH (es1 ++ [(n, RLink text)]) s E'); [|exact K]. rewrite El, app_nil_r. exact B.
    + unfold ret at 1 in K. apply (IH (es1 ++ [(n, RDir st' es')]) s E'); [|exact K]. rewrite El, app_nil_r. exact B.
Qed.

Lemma walk_loop s' : (forall n rest, T = n :: rest -> is_drive_name n = false) ->
  forall W2 W1 s, real_walk [] t = W1 ++ W2 -> built s (flat_map leaves_of W1) ->
  each (fun b => path <- lift (fun s => obj_path s o) ;;
          let new_base := host_join path (host_rel (fst b)) in
          add_real_links new_base (snd b) ;;; add_real_files new_base ro (snd b)) W2 s = (Ok tt, s') -> built s' (order t).
Proof.
  intros Hdr W2. induction W2 as [|[rel es] W2 IH]; intros W1 s E B K.
  - cbn in K. injection K as <-. rewrite app_nil_r in E. unfold order. rewrite E. exact B.
  - assert (E' : real_walk [] t = (W1 ++ [(rel, es)]) ++ W2) by (rewrite <- app_assoc; exact E).
    assert (Hin : In (rel, es) (real_walk [] t)) by (rewrite E; apply in_app_iff; right; left; reflexivity).
    destruct (real_walk_only t [] rel es Wt Hin) as (q & st & Eq & Er). cbn in Eq. subst q.
    assert (Eo : order t = flat_map leaves_of W1 ++ (links_of rel es ++ files_of rel es) ++ flat_map leaves_of W2).
    { unfold order. rewrite E, flat_map_app. reflexivity. }
    cbn [each fst snd] in K. unfold bind at 1 in K. unfold bind at 1 in K. unfold lift at 1 in K.
    destruct (dir_path_s s (bu_inv _ _ _ _ _ _ B) T o (bu_top _ _ _ _ _ _ B) (bu_topd _ _ _ _ _ _ B) Hdr) as [Ep _].
    rewrite Ep, (built_sep b T o ro Hb s _ B) in K. cbv zeta beta iota in K.
    match type of K with context [bind ?m ?k s] => destruct (bind m k s) as [[u|e] s3] eqn:E3 end; [|discriminate].
    destruct u. unfold bind in E3.
    destruct (add_real_links (host_join (abs_path slash T) (host_rel rel)) es s) as [[[]|e] s2] eqn:E2; [|discriminate].
    apply (IH (W1 ++ [(rel, es)]) s3 E'); [|exact K]. rewrite flat_map_app. cbn [flat_map]. rewrite app_nil_r. unfold leaves_of at 2. cbn [fst snd].
    rewrite app_assoc. apply (files_loop rel st es (flat_map leaves_of W1 ++ links_of rel es) s3 Er) with (es2 := es) (es1 := []) (s := s2); [|reflexivity| |exact E3].
    + rewrite Eo. intros y Hy. rewrite !in_app_iff in *. destruct Hy as [[Hy|Hy]|Hy]; auto.
    + cbn. rewrite app_nil_r. apply (links_loop rel st es (flat_map leaves_of W1) s2 Er) with (es2 := es) (es1 := []) (s := s); [| |reflexivity| |exact E2].
      * rewrite Eo. intros y Hy. apply in_app_iff in Hy. apply in_app_iff. destruct Hy as [Hy|Hy]; [left; exact Hy|right; apply in_app_iff; left; apply in_app_iff; left; exact Hy].
      * pose proof (order_nodup t Wt) as Nd. rewrite Eo, <- app_assoc, app_assoc, map_app in Nd. clear - Nd. revert Nd. generalize (map fst (files_of rel es ++ flat_map leaves_of W2)).
        generalize (map fst (flat_map leaves_of W1 ++ links_of rel es)). induction l as [|a l IH]; intros l2 Nd; [constructor|]. cbn in Nd.
        apply NoDup_cons_iff in Nd. destruct Nd as [Hn Nd]. constructor; [|apply (IH l2 Nd)]. intros Ka. apply Hn, in_app_iff. left. exact Ka.
      * cbn. rewrite app_nil_r. exact B.
Qed.
End Loops.

(** ** The directory at the top *)
Lemma dir_walk_in s : Ginv s -> forall cur a d, dir_walk s cur a d -> is_dirobj s d = true ->
  (exists q, at_names s q = Some cur) -> exists q, at_names s q = Some d.
Proof.
  intros H cur a d K. induction K as [d|cur n o d' rest d He Hl Hb K IH]; intros Hd [q Hq]; [eauto|].
  apply IH; [exact Hd|]. destruct Hl as [[_ ->]|(text & _ & _ & Hr)].
  - exists (q ++ [n]). rewrite (at_names_snoc s q n cur Hq). exact He.
  - apply (resolve_in_tree s text true d' H Hr). intros ->. inversion K; subst.
    + rewrite (gi_null s H) in Hd. discriminate.
    + match goal with X : entry s devnull_oid _ = Some _ |- _ => apply entry_dirobj in X; rewrite (gi_null s H) in X; discriminate end.
Qed.
