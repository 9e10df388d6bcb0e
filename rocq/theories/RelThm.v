(** * relpath: proofs. *)
From Verif Require Export PathProofs2 RealpathModel.

Lemma posix_sep : c_sep posix_cfg = slash. Proof. reflexivity. Qed.
Lemma filter_names sp names : Forall (ordinary sp) names -> filter nonempty names = names.
Proof.
  induction 1 as [|w l [H _] _ IH]; [reflexivity|]. cbn [filter]. destruct w; [contradiction|]. cbn [nonempty]. rewrite IH. reflexivity.
Qed.
Lemma split_abs_path sp names : Forall (ordinary sp) names -> filter nonempty (split_on sp (abs_path sp names)) = names.
Proof.
  intros H. unfold abs_path. change (sp :: join_with [sp] names) with ([] ++ sp :: join_with [sp] names).
  rewrite split_on_app_sep by (intros []). cbn [filter nonempty]. destruct names as [|n l]; [reflexivity|].
  rewrite split_join; [apply (filter_names sp), H|discriminate|]. intros w Hw. rewrite Forall_forall in H. apply (H w Hw).
Qed.
Lemma host_components_walk cwd p : is_abs slash cwd = true ->
  host_components cwd p = rev (walk_pos slash (walk_pos slash [] cwd) p) /\ Forall (ordinary slash) (host_components cwd p).
Proof.
  intros Hc. destruct (abspath_all posix_cfg posix_cfg_abs cwd p Hc) as (A & C & W). cbn [c_sep posix_cfg] in A, C, W.
  destruct (canonical_abs_inv posix_cfg posix_cfg_like _ C A) as (names & Hn & E). cbn [c_sep posix_cfg] in Hn, E.
  assert (K : host_components cwd p = names).
  { unfold host_components. assert (X : normpath posix_cfg (if host_isabs p then p else join2 posix_cfg cwd p) = path_abspath posix_cfg cwd p).
    { unfold path_abspath. rewrite (path_isabs_posix posix_cfg p posix_cfg_like). cbn [c_win posix_cfg andb].
      change (is_abs (c_sep posix_cfg) p) with (host_isabs p). destruct (host_isabs p); reflexivity. }
    rewrite X, E. apply split_abs_path, Hn. }
  rewrite K. split; [|exact Hn]. specialize (W []). rewrite <- W, E.
  pose proof (walk_abs_path posix_cfg [] names) as Wn. pose proof (den_ordinary posix_cfg [] names Hn) as Dn. cbn [c_sep posix_cfg] in Wn.
  unfold abs_path. rewrite Wn.
  2:{ intros w Hw. rewrite Forall_forall in Hn. destruct (Hn w Hw) as (H1 & _ & _ & H4). split; [exact H1|exact H4]. }
  rewrite Dn, app_nil_r, rev_involutive. reflexivity.
Qed.

(** ** the common prefix *)
Lemma common_le a : forall b, common_length a b <= length a /\ common_length a b <= length b.
Proof. induction a as [|x a IH]; intros [|y b]; cbn; try lia. destruct (str_eqb x y); cbn; [specialize (IH b)|]; lia. Qed.
Lemma common_firstn a : forall b, firstn (common_length a b) a = firstn (common_length a b) b.
Proof. induction a as [|x a IH]; intros [|y b]; cbn; try reflexivity. destruct (str_eqb x y) eqn:E; [|reflexivity]. apply str_eqb_eq in E. subst y. cbn. rewrite IH. reflexivity. Qed.
Lemma common_snoc a w : forall b, common_length a b <= common_length (a ++ [w]) b <= S (common_length a b).
Proof.
  induction a as [|x a IH]; intros [|y b]; cbn; try lia.
  - destruct (str_eqb w y); lia.
  - destruct (str_eqb x y); [|lia]. specialize (IH b). lia.
Qed.
Lemma common_diff a : forall b x y, nth_error a (common_length a b) = Some x -> nth_error b (common_length a b) = Some y -> x <> y.
Proof.
  induction a as [|u a IH]; intros [|v b] x y; cbn; try discriminate. destruct (str_eqb u v) eqn:E.
  - cbn. apply IH.
  - cbn. intros [= <-] [= <-] Q. subst v. rewrite str_eqb_refl in E. discriminate.
Qed.
Lemma common_self a : common_length a a = length a.
Proof. induction a as [|x a IH]; [reflexivity|]. cbn. rewrite str_eqb_refl, IH. reflexivity. Qed.
Lemma walk_length ws : forall A P, fold_left step_pos ws (rev A) = rev P ->
  length A + length P <= length ws + 2 * common_length A P.
Proof.
  induction ws as [|w ws IH]; intros A P H; cbn [fold_left length] in *.
  - apply (f_equal (@rev str)) in H. rewrite !rev_involutive in H. subst P. rewrite common_self. lia.
  - unfold step_pos at 2 in H. destruct (str_eqb w [] || str_eqb w (L ".")); [apply IH in H; lia|]. destruct (str_eqb w (L "..")).
    + destruct (rev A) as [|x r] eqn:E.
      * assert (A = []) by (apply (f_equal (@rev str)) in E; rewrite rev_involutive in E; exact E). subst A. apply (IH [] P) in H. lia.
      * assert (EA : A = rev r ++ [x]) by (apply (f_equal (@rev str)) in E; rewrite rev_involutive in E; exact E). subst A.
        cbn [tl] in H. rewrite <- (rev_involutive r) in H. apply IH in H. rewrite app_length. cbn [length].
        pose proof (common_snoc (rev r) x P). lia.
    + assert (E : w :: rev A = rev (A ++ [w])) by (rewrite rev_app_distr; reflexivity). rewrite E in H. apply IH in H.
      rewrite app_length in H. cbn [length] in H. pose proof (common_snoc A w P). lia.
Qed.

(** ** the result *)
Lemma ends_sep_join sp l : l <> [] -> (forall w, In w l -> w <> [] /\ ~ In sp w) ->
  nonempty (join_with [sp] l) = true /\ ends_with_char sp (join_with [sp] l) = false.
Proof.
  induction l as [|w l IH]; [contradiction|]. intros _ H. destruct (H w (or_introl eq_refl)) as [Hw Hs]. cbn [join_with]. destruct l as [|v l].
  - split; [destruct w; [contradiction|reflexivity]|]. apply not_true_is_false. intros K. apply ends_with_char_spec in K. destruct K as [t K]. subst w. apply Hs, in_or_app. right. left. reflexivity.
  - destruct IH as [I1 I2]; [discriminate|intros u Hu; apply H; right; exact Hu|]. split; [destruct w; [contradiction|reflexivity]|].
    apply not_true_is_false. intros K. apply ends_with_char_spec in K. destruct K as [t K].
    assert (exists t', join_with [sp] (v :: l) = t' ++ [sp]).
    { remember (join_with [sp] (v :: l)) as j eqn:Ej. clear Ej. destruct (exists_last (l:=j)) as (j' & y & Ejy); [destruct j; [discriminate|discriminate]|].
      exists j'. rewrite Ejy in K. rewrite Ejy. replace (w ++ [sp] ++ j' ++ [y]) with ((w ++ [sp] ++ j') ++ [y]) in K by (rewrite <- !app_assoc; reflexivity).
      apply app_inj_tail in K. destruct K as [_ ->]. reflexivity. }
    destruct H0 as [t' E]. assert (ends_with_char sp (join_with [sp] (v :: l)) = true) by (apply ends_with_char_spec; exists t'; exact E). congruence.
Qed.
Lemma joinpaths_words l : l <> [] -> (forall w, In w l -> w <> [] /\ ~ In slash w) -> joinpaths posix_cfg l = Some (join_with [slash] l).
Proof.
  intros Hl H. destruct l as [|w l]; [contradiction|]. clear Hl. rewrite (joinpaths_fold posix_cfg posix_cfg_like posix_cfg_abs). f_equal.
  assert (K : forall r, r <> [] -> (forall w, In w r -> w <> [] /\ ~ In slash w) -> (forall w, In w l -> w <> [] /\ ~ In slash w) ->
    fold_left (join_step posix_cfg) l (join_with [slash] r) = join_with [slash] (r ++ l)).
  { clear. induction l as [|v l IH]; intros r Hr H1 H2; [rewrite app_nil_r; reflexivity|]. cbn [fold_left].
    rewrite (join_step_eq posix_cfg posix_cfg_like posix_cfg_abs). cbn [c_sep posix_cfg]. destruct (H2 v (or_introl eq_refl)) as [Hv Hs].
    assert (A : is_abs slash v = false). { destruct v as [|x v]; [contradiction|]. cbn. apply not_true_is_false. intros K. apply Ascii.eqb_eq in K. subst x. apply Hs. left. reflexivity. }
    rewrite A. destruct (ends_sep_join slash r Hr H1) as [E1 E2]. rewrite E1, E2. cbn [negb andb].
    replace (join_with [slash] r ++ slash :: v) with (join_with [slash] (r ++ [v])) by (rewrite join_with_app by (try assumption; discriminate); reflexivity).
    rewrite IH.
    - rewrite <- app_assoc. reflexivity.
    - destruct r; discriminate.
    - intros u Hu. apply in_app_or in Hu. destruct Hu as [Hu|[<-|[]]]; auto.
    - intros u Hu. apply H2. right. exact Hu. }
  specialize (K [w]). cbn [join_with app] in K. apply K; [discriminate| |]; intros u Hu.
  - destruct Hu as [<-|[]]. apply H. left. reflexivity.
  - apply H. right. exact Hu.
Qed.
Lemma den_repeat_up k st : fold_left step_pos (repeat dotdot k) st = skipn k st.
Proof. revert st. induction k as [|k IH]; intros st; [reflexivity|]. cbn [repeat fold_left]. rewrite IH. destruct st as [|x st]; [cbn; apply skipn_nil|reflexivity]. Qed.
Lemma replace_same a q : replace_char a a q = q.
Proof. unfold replace_char. rewrite <- (map_id q) at 2. apply map_ext. intros x. destruct (Ascii.eqb x a) eqn:E; [apply Ascii.eqb_eq in E; auto|reflexivity]. Qed.

Lemma relpath_spec c cwd p start : posix_abs c -> c_sep c = slash -> is_abs slash cwd = true -> p <> [] ->
  let from := match start with Some q => q | None => cwd end in
  exists r, relpath c cwd p start = Ok r /\ is_abs slash r = false /\ canonical slash r /\
    walk_pos slash (walk_pos slash (walk_pos slash [] cwd) from) r = walk_pos slash (walk_pos slash [] cwd) p /\
    forall q, is_abs slash q = false ->
      walk_pos slash (walk_pos slash (walk_pos slash [] cwd) from) q = walk_pos slash (walk_pos slash [] cwd) p ->
      length (split_on slash r) <= length (split_on slash q).
Proof.
  intros Ha Hs Hc Hp from. unfold relpath. destruct p as [|p0 p']; [contradiction|]. cbn [nonempty negb]. set (p := p0 :: p').
  rewrite (pl_alt _ (pa_pl _ Ha)), Hs, !replace_same. fold from. eexists. split; [reflexivity|].
  unfold host_relpath. destruct (host_components_walk cwd from Hc) as [E1 N1]. destruct (host_components_walk cwd p Hc) as [E2 N2].
  set (S1 := host_components cwd from) in *. set (P := host_components cwd p) in *.
  assert (W1 : walk_pos slash (walk_pos slash [] cwd) from = rev S1) by (rewrite E1, rev_involutive; reflexivity).
  assert (W2 : walk_pos slash (walk_pos slash [] cwd) p = rev P) by (rewrite E2, rev_involutive; reflexivity).
  rewrite W1, W2. clearbody S1 P. clear E1 E2 W1 W2. set (i := common_length S1 P). pose proof (common_le S1 P) as [L1 L2]. fold i in L1, L2.
  assert (Dn : fold_left step_pos (repeat dotdot (length S1 - i) ++ skipn i P) (rev S1) = rev P).
  { rewrite fold_left_app, den_repeat_up. change (fold_left step_pos (skipn i P)) with (fun st => den st (skipn i P)). cbv beta.
    assert (K : skipn (length S1 - i) (rev S1) = rev (firstn i S1)).
    { rewrite <- (firstn_skipn i S1) at 2. rewrite rev_app_distr. rewrite skipn_app. replace (length S1 - i - length (rev (skipn i S1))) with 0 by (rewrite rev_length, skipn_length; lia).
      rewrite skipn_all2; [reflexivity|]. rewrite rev_length, skipn_length. lia. }
    rewrite K. unfold i. rewrite common_firstn. fold i. rewrite (den_ordinary posix_cfg).
    - rewrite <- rev_app_distr, firstn_skipn. reflexivity.
    - rewrite <- (firstn_skipn i P) in N2. apply Forall_app in N2. apply N2. }
  assert (Cw : forall w, In w (repeat dotdot (length S1 - i) ++ skipn i P) -> w <> [] /\ ~ In slash w).
  { intros w Hw. apply in_app_or in Hw. destruct Hw as [Hw|Hw].
    - apply repeat_spec in Hw. subst w. split; [discriminate|]. intros [K|[K|[]]]; discriminate.
    - rewrite <- (firstn_skipn i P) in N2. apply Forall_app in N2. destruct N2 as [_ N2]. rewrite Forall_forall in N2. destruct (N2 w Hw) as (X & _ & _ & Y). auto. }
  assert (Ln : forall q, is_abs slash q = false -> walk_pos slash (rev S1) q = rev P -> length (repeat dotdot (length S1 - i) ++ skipn i P) <= length (split_on slash q)).
  { intros q Hq W. unfold walk_pos in W. rewrite Hq in W. apply walk_length in W. fold i in W. rewrite app_length, repeat_length, skipn_length. lia. }
  assert (Ca : repeat dotdot (length S1 - i) ++ skipn i P <> [] -> canonical slash (join_with [slash] (repeat dotdot (length S1 - i) ++ skipn i P))).
  { intros Hne. apply can_rel; [exact Hne| |].
    - apply Forall_forall. intros w Hw. apply repeat_spec in Hw. exact Hw.
    - rewrite <- (firstn_skipn i P) in N2. apply Forall_app in N2. apply N2. }
  destruct (repeat dotdot (length S1 - i) ++ skipn i P) as [|w rest] eqn:Er.
  - split; [reflexivity|]. split; [apply can_dot|]. split; [|].
    + exact Dn.
    + intros q _ _. change (length (split_on slash dot)) with 1. destruct (split_on slash q) eqn:Eq; [|cbn; lia]. contradiction (split_on_nonempty slash q Eq).
  - rewrite (joinpaths_words (w :: rest)) by (auto; discriminate).
    assert (A : is_abs slash (join_with [slash] (w :: rest)) = false) by (apply (is_abs_join posix_cfg); apply Cw; left; reflexivity).
    split; [exact A|]. split; [apply Ca; discriminate|]. split.
    + unfold walk_pos. rewrite A, split_join; [exact Dn|discriminate|]. intros u Hu. apply Cw, Hu.
    + intros q Hq W. rewrite split_join; [apply Ln; assumption|discriminate|]. intros u Hu. apply Cw, Hu.
Qed.
