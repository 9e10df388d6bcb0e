(** * Path resolution, second part: resolve_path, resolve, lresolve, exists. *)
From Verif Require Export ResProofs.

Lemma rfind_pre_spec pat p pre : rfind_pre pat p = Some pre -> exists t, p = pre ++ pat ++ t.
Proof.
  revert pre; induction p as [|x p IH]; intros pre; cbn [rfind_pre]; [discriminate|].
  destruct (rfind_pre pat p) as [q|].
  - intros E; injection E as <-. destruct (IH q eq_refl) as [t ->]. exists t; reflexivity.
  - destruct (starts_with pat (x :: p)) eqn:E; [|discriminate]. intros H; injection H as <-.
    apply starts_with_spec in E. destruct E as [t Et]. exists t; exact Et.
Qed.

Lemma anp_names s p : good s -> exists names, Forall (ordinary (sepc s)) names /\ anp s p = abs_path (sepc s) names.
Proof.
  intros Hg. pose proof (gd_lin s Hg) as Hl.
  apply (absnormpath_names _ (linux_like_posix _ Hl)); [apply linux_like_abs, Hl|exact (gd_cwd s Hg)].
Qed.

Lemma anp_abs_path s names : good s -> Forall (ordinary (sepc s)) names ->
  anp s (abs_path (sepc s) names) = abs_path (sepc s) names.
Proof.
  intros Hg H. pose proof (gd_lin s Hg) as Hl.
  apply (absnormpath_abs_path _ (linux_like_posix _ Hl)); [apply linux_like_abs, Hl|exact (gd_cwd s Hg)|exact H].
Qed.

Lemma anp_nil s : good s -> anp s [] = abs_path (sepc s) [].
Proof.
  intros Hg. pose proof (gd_lin s Hg) as Hl. unfold anp.
  rewrite (absnormpath_eq _ (linux_like_posix _ Hl)).
  - unfold absnorm_arg. apply (normpath_fix _ (linux_like_posix _ Hl)). apply can_root.
  - apply linux_like_abs, Hl.
  - exact (gd_cwd s Hg).
Qed.

(** the prefix before the last "/.." of a path made of clean names *)
Lemma rfind_up_clean sp names pre : Forall (clean sp) names ->
  rfind_pre [sp; dotc; dotc] (abs_path sp names) = Some pre ->
  exists a b, names = a ++ b /\ b <> [] /\ (pre = abs_path sp a \/ (a = [] /\ pre = [])).
Proof.
  intros H E. apply rfind_pre_spec in E. destruct E as [t E].
  destruct names as [|n names].
  { exfalso. unfold abs_path in E. simpl in E. destruct pre as [|x pre]; simpl in E; [discriminate|].
    destruct pre; discriminate. }
  pose proof (split_abs_clean (mkcfg false false true sp None) (n :: names)) as Hs. cbn [c_sep] in Hs.
  specialize (Hs H ltac:(discriminate)). rewrite E in Hs.
  change (pre ++ [sp; dotc; dotc] ++ t) with (pre ++ sp :: (dotc :: dotc :: t)) in Hs.
  rewrite split_on_app_mid in Hs.
  pose proof (split_on_nonempty sp pre) as Hn1. pose proof (split_on_nonempty sp (dotc :: dotc :: t)) as Hn2.
  destruct (split_on sp pre) as [|w a] eqn:Ea; [congruence|]. cbn [app] in Hs. injection Hs as -> Hs.
  exists a, (split_on sp (dotc :: dotc :: t)). split; [symmetry; exact Hs|]. split; [exact Hn2|].
  pose proof (join_split sp pre) as Hj. rewrite Ea in Hj.
  destruct a as [|v a]; [right; split; [reflexivity|symmetry; exact Hj]|left; symmetry; exact Hj].
Qed.

Lemma rfind_up_abs sp names pre : Forall (ordinary sp) names ->
  rfind_pre [sp; dotc; dotc] (abs_path sp names) = Some pre ->
  exists a b, names = a ++ b /\ b <> [] /\ (pre = abs_path sp a \/ (a = [] /\ pre = [])).
Proof. intros H. apply rfind_up_clean, Forall_clean, H. Qed.

(** no ".." inside: nothing to check *)
Lemma rfind_none_valid ex n s p : rfind_pre [sepc s; dotc; dotc] p = None -> valid_rel ex n s p = Ok true.
Proof. intros H. destruct n; cbn [valid_rel]; fold (sepc s); rewrite H; destruct (c_win (f_cfg s)); reflexivity. Qed.

Lemma abs_path_length sp names : length names <= length (abs_path sp names).
Proof.
  unfold abs_path. simpl. assert (H : length names <= S (length (join_with [sp] names))).
  { induction names as [|n names IH]; [simpl; lia|]. destruct names as [|m names]; [simpl; lia|].
    change (join_with [sp] (n :: m :: names)) with (n ++ sp :: join_with [sp] (m :: names)).
    rewrite app_length. simpl length in *. lia. }
  exact H.
Qed.

Section Fuel.
Variable s : fs.
Hypothesis Hg : good s.
Notation sp := (sepc s).

Lemma valid_rel_agree ex1 ex2 k names fuel :
  Forall (ordinary sp) names -> length names <= k ->
  (forall a, Forall (ordinary sp) a -> length a < k -> ex1 (abs_path sp a) = ex2 (abs_path sp a)) ->
  valid_rel ex1 fuel s (abs_path sp names) = valid_rel ex2 fuel s (abs_path sp names).
Proof.
  intros Hn Hk Hex. revert names Hn Hk; induction fuel as [|fuel IH]; intros names Hn Hk; cbn [valid_rel].
  - destruct (c_win (f_cfg s)); [reflexivity|]. destruct (rfind_pre _ _); reflexivity.
  - destruct (c_win (f_cfg s)); [reflexivity|]. fold sp.
    destruct (rfind_pre [sp; dotc; dotc] (abs_path sp names)) as [pre|] eqn:E; [|reflexivity].
    apply (rfind_up_abs sp names pre Hn) in E. destruct E as (a & b & -> & Hb & Hpre).
    apply Forall_app in Hn. destruct Hn as [Ha _]. rewrite app_length in Hk.
    assert (length a < k) by (destruct b; [congruence|simpl in Hk; lia]).
    assert (Ean : anp s pre = abs_path sp a).
    { destruct Hpre as [->|[-> ->]]; [apply anp_abs_path; assumption|apply anp_nil, Hg]. }
    rewrite Ean, (Hex a Ha H). unfold rbind. destruct (ex2 (abs_path sp a)) as [[|]|]; try reflexivity.
    destruct Hpre as [->|[-> ->]]; [apply IH; [assumption|lia]|].
    rewrite !rfind_none_valid by reflexivity. reflexivity.
Qed.

Lemma exists_body_agree ex1 ex2 k names :
  Forall (ordinary sp) names -> length names <= k ->
  (forall a, Forall (ordinary sp) a -> length a < k -> ex1 (abs_path sp a) = ex2 (abs_path sp a)) ->
  exists_body ex1 s (abs_path sp names) false = exists_body ex2 s (abs_path sp names) false.
Proof.
  intros Hn Hk Hex. unfold exists_body. cbn [rbind].
  rewrite (ends_sep_clean (f_cfg s) (gd_lin s Hg) names (Forall_clean _ _ Hn)).
  unfold resolve_path_. rewrite (valid_rel_agree ex1 ex2 k names _ Hn Hk Hex). reflexivity.
Qed.

Lemma exists_n_stable k names n m :
  Forall (ordinary sp) names -> length names <= k -> k < n -> k < m ->
  exists_n n s (abs_path sp names) = exists_n m s (abs_path sp names).
Proof.
  revert names n m; induction k as [k IH] using lt_wf_ind. intros names n m Hn Hk H1 H2.
  destruct n as [|n]; [lia|]. destruct m as [|m]; [lia|]. cbn [exists_n].
  apply (exists_body_agree _ _ k); [assumption|assumption|].
  intros a Ha Hl. apply (IH (length a)); [lia|assumption|lia|lia|lia].
Qed.

Lemma exists_top_n names n : Forall (ordinary sp) names -> length names < n ->
  exists_n n s (abs_path sp names) = exists_top s (abs_path sp names).
Proof.
  intros Hn H. unfold exists_top. apply (exists_n_stable (length names)); [assumption|lia|lia|].
  pose proof (abs_path_length sp names). lia.
Qed.

(** the recursion equation: the inner [exists] is the public one *)
Lemma exists_top_eq names : Forall (ordinary sp) names ->
  exists_top s (abs_path sp names) = exists_ s (abs_path sp names) false.
Proof.
  intros Hn. unfold exists_. unfold exists_top at 1. cbn [exists_n].
  apply (exists_body_agree _ _ (length names)); [assumption|lia|].
  intros a Ha Hl. apply exists_top_n; [assumption|]. pose proof (abs_path_length sp names). lia.
Qed.

(** ** No fuel exhaustion *)
Lemma valid_rel_norec ex fuel p : length p <= fuel ->
  (forall names, Forall (ordinary sp) names -> ex (abs_path sp names) <> Err RecErr) ->
  valid_rel ex fuel s p <> Err RecErr.
Proof.
  intros Hl Hex. revert p Hl; induction fuel as [|fuel IH]; intros p Hl; cbn [valid_rel];
    destruct (c_win (f_cfg s)); try discriminate; fold sp;
    destruct (rfind_pre [sp; dotc; dotc] p) as [pre|] eqn:E; try discriminate.
  - apply rfind_pre_spec in E. destruct E as [t ->]. rewrite app_length in Hl. simpl in Hl. lia.
  - destruct (anp_names s pre Hg) as (a & Ha & ->). specialize (Hex a Ha).
    destruct (ex (abs_path sp a)) as [[|]|e]; cbn [rbind]; [|discriminate|congruence].
    apply IH. apply rfind_pre_spec in E. destruct E as [t ->]. rewrite app_length in Hl. simpl in Hl. lia.
Qed.

Lemma resolve_path_norec ex p :
  (forall names, Forall (ordinary sp) names -> ex (abs_path sp names) <> Err RecErr) ->
  resolve_path_ ex s p <> Err RecErr.
Proof.
  intros Hex. unfold resolve_path_. destruct (str_eqb p []); [discriminate|].
  pose proof (valid_rel_norec ex (length p) p (le_n _) Hex) as Hv.
  destruct (valid_rel ex (length p) s p) as [[|]|e]; cbn [rbind negb]; [|discriminate|congruence].
  destruct (is_root_path _ _); [discriminate|]. destruct (str_eqb _ (devnull_name s)); [discriminate|].
  destruct (resolve_components _ s _) as [r|e] eqn:E; cbn [rbind]; [discriminate|].
  destruct (resolve_components_err s _ _ e Hg E) as [He|He]; rewrite He; discriminate.
Qed.
End Fuel.


Lemma is_root_path_linux c p : linux_like c -> is_root_path c p = str_eqb p [c_sep c].
Proof.
  intros H. unfold is_root_path, root_name, sep. rewrite (no_drive_letter c (linux_like_posix _ H)), (ll_cs _ H).
  rewrite andb_false_r, orb_false_r. cbn [negb andb]. apply orb_false_r.
Qed.

Lemma abs_path_root_eq sp names : Forall (clean sp) names ->
  str_eqb (abs_path sp names) [sp] = match names with [] => true | _ => false end.
Proof.
  intros H. destruct names as [|n names]; [unfold abs_path; simpl; rewrite Ascii.eqb_refl; reflexivity|].
  apply str_eqb_neq. unfold abs_path. inversion H as [|? ? [H1 _] _]; subst.
  destruct n as [|x n]; [congruence|]. destruct names; simpl; discriminate.
Qed.

Lemma is_null_dec s names : is_null s names \/ ~ is_null s names.
Proof.
  unfold is_null. destruct names as [|n names]; [right; intros [H _]; congruence|].
  destruct (str_eq_dec (abs_path (sepc s) (n :: names)) (devnull_name s)) as [E|E];
    [left; split; [discriminate|exact E]|right; intros [_ H]; congruence].
Qed.

Section Lookups.
Variable s : fs.
Hypothesis Hg : good s.
Notation sp := (sepc s).
Let Hl : linux_like (f_cfg s) := gd_lin s Hg.
Let Hp : posix_like (f_cfg s) := linux_like_posix _ Hl.
Let Hcs : c_cs (f_cfg s) = true := ll_cs _ Hl.

(** ** resolve_path *)
Lemma resolve_path_ok ex p r :
  resolve_path_ ex s p = Ok r <->
  (p <> [] /\ valid_rel ex (length p) s p = Ok true /\
   exists names rr, Forall (ordinary sp) names /\ anp s p = abs_path sp names /\
     resolved s names rr /\ r = abs_path sp rr).
Proof.
  unfold resolve_path_. rewrite (original_path_cs s p Hcs).
  destruct (str_eqb_spec p []) as [->|Hne].
  { split; [discriminate|]. intros (H & _). congruence. }
  destruct (valid_rel ex (length p) s p) as [[|]|e]; cbn [rbind negb].
  2:{ split; [discriminate|]. intros (_ & H & _). discriminate. }
  2:{ split; [discriminate|]. intros (_ & H & _). discriminate. }
  destruct (anp_names s p Hg) as (names & Hn & En). rewrite En.
  rewrite (is_root_path_linux _ _ Hl).
  pose proof (Forall_clean _ _ Hn) as Hcl.
  assert (Hex : forall rr, resolved s names rr -> exists names0 rr0, Forall (ordinary sp) names0 /\
     abs_path sp names = abs_path sp names0 /\ resolved s names0 rr0 /\ abs_path sp rr = abs_path sp rr0)
    by (intros rr Hr; exists names, rr; auto).
  assert (Hback : forall r0, (exists names0 rr0, Forall (ordinary sp) names0 /\
     abs_path sp names = abs_path sp names0 /\ resolved s names0 rr0 /\ r0 = abs_path sp rr0) ->
     exists rr, resolved s names rr /\ r0 = abs_path sp rr).
  { intros r0 (n0 & rr0 & H0 & E0 & Hr & ->). apply (abs_path_inj _ Hp) in E0; [subst n0|assumption|assumption]. exists rr0; auto. }
  rewrite (abs_path_root_eq _ _ Hcl).
  destruct names as [|n names].
  - split.
    + intros E; injection E as <-. repeat split; [assumption|]. apply Hex. right. split; [intros [H _]; congruence|].
      exists 0; split; [lia|]. apply res_done. intros pre n l rest (E & _). destruct pre; discriminate.
    + intros (_ & _ & H). apply Hback in H. destruct H as (rr & Hr & ->). f_equal.
      destruct Hr as [[[Hx _] _]|(_ & k & _ & Hr)]; [congruence|].
      inversion Hr as [? _|? ? pre n l rest t ? Hm]; subst; [reflexivity|]. destruct Hm as (E & _). destruct pre; discriminate.
  - destruct (str_eqb_spec (abs_path sp (n :: names)) (devnull_name s)) as [Ed|Ed].
    + assert (Hnull : is_null s (n :: names)) by (split; [discriminate|exact Ed]).
      split.
      * intros E; injection E as <-. repeat split; [assumption|]. apply Hex. left; auto.
      * intros (_ & _ & H). apply Hback in H. destruct H as (rr & Hr & ->). f_equal.
        destruct Hr as [(_ & ->)|(H & _)]; [reflexivity|contradiction].
    + assert (Hnull : ~ is_null s (n :: names)) by (intros [_ H]; congruence).
      rewrite (path_components_clean _ Hl _ Hcl).
      destruct (resolve_components max_links s (n :: names)) as [rr|e] eqn:E; cbn [rbind].
      * apply (resolve_components_ok s max_links _ _ Hg) in E. destruct E as (k & Hk & Hr).
        rewrite (components_to_path_clean _ Hl) by (eapply resolves_clean; eassumption).
        split.
        -- intros E; injection E as <-. repeat split; [assumption|]. apply Hex. right; split; [assumption|]. exists k; auto.
        -- intros (_ & _ & H). apply Hback in H. destruct H as (rr' & Hr' & ->). f_equal. f_equal.
           destruct Hr' as [(H & _)|(_ & k' & _ & Hr')]; [contradiction|].
           apply (resolves_det s k k' _ _ _ Hg Hr Hr').
      * split; [discriminate|]. intros (_ & _ & H). apply Hback in H. destruct H as (rr' & Hr' & _).
        destruct Hr' as [(H & _)|(_ & k' & Hk' & Hr')]; [contradiction|].
        assert (E2 : resolve_components max_links s (n :: names) = Ok rr')
          by (apply (resolve_components_ok s _ _ _ Hg); exists k'; auto).
        congruence.
Qed.

Lemma resolved_clean names rr : Forall (clean sp) names -> resolved s names rr -> Forall (clean sp) rr.
Proof.
  intros H [[_ ->]|(_ & k & _ & Hr)]; [exact H|]. eapply resolves_clean; eassumption.
Qed.

Lemma resolved_det names r r' : resolved s names r -> resolved s names r' -> r = r'.
Proof.
  intros [[H ->]|(H & k & _ & Hr)] [[H' ->]|(H' & k' & _ & Hr')]; try reflexivity; try contradiction.
  apply (resolves_det s k k' names r r' Hg Hr Hr').
Qed.

(** the result of a resolution meets no link (unless it is the null device) *)
Lemma resolves_nolink k names r : resolves s k names r ->
  forall pre n l rest, ~ meets_link s r pre n l rest.
Proof. intros H; induction H; assumption. Qed.

(** ** the object walk *)
Lemma norm_walk_ok rl check d names o :
  (forall pre rest x, names = pre ++ rest -> tree_at s d pre = Some x -> is_link s x = false) ->
  norm_walk rl s check d names = Ok o <->
  (tree_at s d names = Some o /\ searchable s d names /\ may_read s check d names).
Proof.
  revert d; induction names as [|n names IH]; intros d Hnl; cbn [norm_walk].
  - cbn [tree_at]. split.
    + intros E; injection E as <-. repeat split.
      * intros pre n rest x E. destruct pre; discriminate.
      * right; right. intros pre rest x E Hne. destruct pre; [congruence|discriminate].
    + intros (E & _). congruence.
  - fold (is_link s d). rewrite (Hnl [] (n :: names) d eq_refl eq_refl). cbn [rbind].
    fold (is_dirm s d). destruct (is_dirm s d) eqn:Ed; cbn [negb].
    2:{ split; [unfold os_err; discriminate|]. intros (_ & Hs & _). rewrite (Hs [] n names d eq_refl eq_refl) in Ed. discriminate. }
    rewrite (get_entry_cs s d n Hcs). cbn [tree_at].
    destruct (entry s d n) as [x|] eqn:En.
    2:{ split; [|intros (H & _); discriminate]. destruct (is_dirobj s d); discriminate. }
    rewrite (entry_dirobj s d n x En).
    assert (Hnl' : forall pre rest y, names = pre ++ rest -> tree_at s x pre = Some y -> is_link s y = false).
    { intros pre rest y -> Hy. apply (Hnl (n :: pre) rest y eq_refl). simpl. rewrite En. exact Hy. }
    specialize (IH x Hnl').
    assert (Hsr : searchable s x names <-> searchable s d (n :: names)).
    { split; intros H pre m rest y E Hy.
      - destruct pre as [|a pre]; [simpl in Hy; injection Hy as <-; exact Ed|].
        simpl in E. injection E as -> ->. simpl in Hy. rewrite En in Hy. apply (H pre m rest y eq_refl Hy).
      - subst names. apply (H (n :: pre) m rest y eq_refl). simpl. rewrite En. exact Hy. }
    assert (Hrd : readable s d (n :: names) <-> (has_bit (o_mode (ob s x)) PERM_READ = true /\ readable s x names)).
    { split.
      - intros H. split.
        + apply (H [n] names x eq_refl); [discriminate|]. simpl. rewrite En. reflexivity.
        + intros pre rest y -> Hne Hy. apply (H (n :: pre) rest y eq_refl); [discriminate|]. simpl. rewrite En. exact Hy.
      - intros [H1 H2] pre rest y E Hne Hy. destruct pre as [|a pre]; [congruence|].
        simpl in E. injection E as -> ->. simpl in Hy. rewrite En in Hy.
        destruct pre as [|b pre]; [simpl in Hy; injection Hy as <-; exact H1|].
        apply (H2 (b :: pre) rest y eq_refl); [discriminate|exact Hy]. }
    unfold may_read in *. destruct (is_root s) eqn:Er; cbn [negb andb].
    + rewrite IH, Hsr. tauto.
    + destruct check; cbn [andb].
      * destruct (has_bit (o_mode (ob s x)) PERM_READ) eqn:Eb; cbn [negb].
        -- rewrite IH, Hsr, Hrd. split; [intros (A & B & C)|intros (A & B & C)]; repeat split; auto;
             destruct C as [C|[C|C]]; try discriminate; right; right; tauto.
        -- split; [discriminate|]. intros (_ & _ & [C|[C|C]]); try discriminate. rewrite Hrd in C. destruct C; discriminate.
      * rewrite IH, Hsr. split; intros (A & B & C); repeat split; auto.
Qed.

Lemma norm_walk_err rl check d names e :
  (forall pre rest x, names = pre ++ rest -> tree_at s d pre = Some x -> is_link s x = false) ->
  norm_walk rl s check d names = Err e ->
  e = OSErr ENOTDIR \/ e = OSErr ENOENT \/ e = OSErr EACCES \/ e = AttrErr.
Proof.
  revert d; induction names as [|n names IH]; intros d Hnl; cbn [norm_walk]; [discriminate|].
  fold (is_link s d). rewrite (Hnl [] (n :: names) d eq_refl eq_refl). cbn [rbind].
  rewrite (ll_win _ Hl). destruct (S_ISDIR (o_mode (ob s d))); cbn [negb].
  2:{ intros E; injection E as <-; auto. }
  rewrite (get_entry_cs s d n Hcs).
  destruct (entry s d n) as [x|] eqn:En.
  2:{ destruct (is_dirobj s d); intros E; injection E as <-; auto. }
  rewrite (entry_dirobj s d n x En).
  destruct (negb (is_root s) && check && negb (has_bit (o_mode (ob s x)) PERM_READ)).
  - intros E; injection E as <-; auto.
  - apply IH. intros pre rest y -> Hy. apply (Hnl (n :: pre) rest y eq_refl). simpl. rewrite En. exact Hy.
Qed.

(** the root is not a link when it is a directory object *)
Let Hroot : is_dirobj s root_oid = true := gd_root s Hg.

Lemma nolink_prefixes names :
  (forall pre n l rest, ~ meets_link s names pre n l rest) ->
  forall pre rest x, names = pre ++ rest -> tree_at s root_oid pre = Some x -> is_link s x = false.
Proof.
  intros H pre rest x -> Hx. destruct pre as [|n pre _] using rev_ind.
  - simpl in Hx. injection Hx as <-. apply (gd_dnl s Hg), Hroot.
  - destruct (is_link s x) eqn:E; [|reflexivity]. exfalso.
    apply (H pre n x rest). repeat split; [rewrite <- app_assoc; reflexivity|exact Hx|exact E].
Qed.

Lemma resolve_ok ex p check o :
  resolve_ ex s p check = Ok o <->
  exists rr, resolve_path_ ex s p = Ok (abs_path sp rr) /\ Forall (clean sp) rr /\
    ((is_null s rr /\ o = devnull_oid) \/
     (~ is_null s rr /\ at_names s rr = Some o /\ searchable s root_oid rr /\ may_read s check root_oid rr)).
Proof.
  unfold resolve_. destruct (resolve_path_ ex s p) as [rp|e] eqn:Er; cbn [rbind].
  2:{ split; [discriminate|]. intros (rr & H & _). discriminate. }
  pose proof Er as Er2. apply (resolve_path_ok ex p rp) in Er2.
  destruct Er2 as (_ & _ & names & rr & Hn & _ & Hr & ->).
  pose proof (resolved_clean names rr (Forall_clean _ _ Hn) Hr) as Hcl.
  assert (Huniq : (exists rr0, Ok (abs_path sp rr) = Ok (abs_path sp rr0) /\ Forall (clean sp) rr0 /\
    ((is_null s rr0 /\ o = devnull_oid) \/
     (~ is_null s rr0 /\ at_names s rr0 = Some o /\ searchable s root_oid rr0 /\ may_read s check root_oid rr0))) <->
    ((is_null s rr /\ o = devnull_oid) \/
     (~ is_null s rr /\ at_names s rr = Some o /\ searchable s root_oid rr /\ may_read s check root_oid rr))).
  { split; [|intros H; exists rr; auto]. intros (rr0 & E & H0 & H). injection E as E.
    assert (E2 : abs_path sp rr = abs_path sp rr0) by (unfold abs_path; f_equal; exact E).
    apply (abs_path_clean_inj _ Hl) in E2; [subst rr0|assumption|assumption]. exact H. }
  rewrite Huniq. unfold get_norm. rewrite (abs_path_root_eq _ _ Hcl).
  rewrite (original_path_cs s _ Hcs), (path_components_clean _ Hl _ Hcl).
  destruct rr as [|n rr].
  - split.
    + intros E; injection E as <-. right. split; [intros [H _]; congruence|]. split; [reflexivity|]. split.
      * intros pre n rest x E. destruct pre; discriminate.
      * right; right. intros pre rest x E Hne. destruct pre; [congruence|discriminate].
    + intros [[[H _] _]|(_ & H & _)]; [congruence|]. unfold at_names in H. simpl in H. congruence.
  - destruct (str_eqb_spec (abs_path sp (n :: rr)) (devnull_name s)) as [Ed|Ed].
    + assert (Hnull : is_null s (n :: rr)) by (split; [discriminate|exact Ed]).
      split; [intros E; injection E as <-; left; auto|intros [[_ ->]|[H _]]; [reflexivity|contradiction]].
    + assert (Hnull : ~ is_null s (n :: rr)) by (intros [_ H]; congruence).
      assert (Hnl : forall pre m l rest, ~ meets_link s (n :: rr) pre m l rest).
      { destruct Hr as [[Hi E]|(_ & k & _ & Hr)]; [exfalso; subst names; contradiction|]. apply (resolves_nolink _ _ _ Hr). }
      rewrite norm_walk_ok by (apply nolink_prefixes, Hnl). fold (at_names s (n :: rr)).
      split; [intros H; right; auto|intros [[H _]|[_ H]]; [contradiction|exact H]].
Qed.

Lemma resolve_err ex p check e :
  resolve_ ex s p check = Err e ->
  resolve_path_ ex s p = Err e \/ e = OSErr ENOTDIR \/ e = OSErr ENOENT \/ e = OSErr EACCES \/ e = AttrErr.
Proof.
  unfold resolve_. destruct (resolve_path_ ex s p) as [rp|e'] eqn:Er; cbn [rbind]; [|intros E; left; injection E as ->; reflexivity].
  apply (resolve_path_ok ex p rp) in Er.
  destruct Er as (_ & _ & names & rr & Hn & _ & Hr & ->).
  pose proof (resolved_clean names rr (Forall_clean _ _ Hn) Hr) as Hcl.
  unfold get_norm. rewrite (abs_path_root_eq _ _ Hcl).
  rewrite (original_path_cs s _ Hcs), (path_components_clean _ Hl _ Hcl).
  destruct rr as [|n rr]; [discriminate|].
  destruct (str_eqb_spec (abs_path sp (n :: rr)) (devnull_name s)) as [Ed|Ed]; [discriminate|].
  assert (Hnl : forall pre m l rest, ~ meets_link s (n :: rr) pre m l rest).
  { destruct Hr as [[Hi E]|(_ & k & _ & Hr)]; [exfalso; subst; destruct Hi; congruence|]. apply (resolves_nolink _ _ _ Hr). }
  intros E. right. apply norm_walk_err in E; [tauto|]. apply nolink_prefixes, Hnl.
Qed.

Lemma resolve_norec ex p check :
  (forall names, Forall (ordinary sp) names -> ex (abs_path sp names) <> Err RecErr) ->
  resolve_ ex s p check <> Err RecErr.
Proof.
  intros Hex E. apply resolve_err in E.
  destruct E as [E|[E|[E|[E|E]]]]; try discriminate. apply (resolve_path_norec s Hg ex p Hex E).
Qed.

(** ** lresolve *)
Lemma lresolve_inv ex p o : lresolve_ ex s p = Ok o ->
  (p = [sp] /\ o = root_oid) \/
  exists h t d, resolve_ ex s h true = Ok d /\ is_dirobj s d = true /\
    has_bit (o_mode (ob s d)) PERM_READ = true /\ ((t = [] /\ o = d) \/ (t <> [] /\ entry s d t = Some o)).
Proof.
  unfold lresolve_. destruct (str_eqb p []); [discriminate|].
  destruct (str_eqb_spec p [sp]) as [->|_]; [intros E; injection E as <-; left; auto|].
  destruct (splitpath _ _) as [h t]. intros H. right.
  set (h' := if str_eqb h [] then f_cwd s else h) in *.
  destruct (resolve_ ex s h' true) as [d|e] eqn:Er; cbn [rbind] in H; [|discriminate].
  exists h', t, d. split; [exact Er|].
  destruct (is_dirobj s d) eqn:Ed; cbn [negb] in H; [|discriminate]. split; [reflexivity|].
  destruct (has_bit (o_mode (ob s d)) PERM_READ); cbn [negb] in H; [|discriminate]. split; [reflexivity|].
  destruct (str_eqb_spec t []) as [->|Ht]; [left; split; congruence|right; split; [exact Ht|]].
  rewrite (get_entry_cs s d t Hcs), Ed in H. destruct (entry s d t); cbv beta iota in H; [injection H as <-; reflexivity|discriminate].
Qed.

Lemma strip_seps_clean names fuel : Forall (clean sp) names ->
  strip_seps (f_cfg s) fuel (abs_path sp names) = abs_path sp names.
Proof. intros H. destruct fuel; [reflexivity|]. cbn [strip_seps]. rewrite (ends_sep_clean _ Hl _ H). reflexivity. Qed.

Lemma abs_path_not_dot names : str_eqb (abs_path sp names) dot = false.
Proof. apply (abs_not_dot _ Hp). simpl. apply Ascii.eqb_refl. Qed.

Lemma lresolve_snoc ex names n o : Forall (ordinary sp) (names ++ [n]) ->
  lresolve_ ex s (abs_path sp (names ++ [n])) = Ok o <->
  exists d, resolve_ ex s (abs_path sp names) true = Ok d /\ is_dirobj s d = true /\
    has_bit (o_mode (ob s d)) PERM_READ = true /\ entry s d n = Some o.
Proof.
  intros Hn. unfold lresolve_. change (str_eqb (abs_path sp (names ++ [n])) []) with false. cbv iota.
  rewrite (abs_path_root_eq _ _ (Forall_clean _ _ Hn)).
  replace (match names ++ [n] with [] => true | _ :: _ => false end) with false by (destruct names; reflexivity).
  unfold path_without_trailing_separators. rewrite (strip_seps_clean _ _ (Forall_clean _ _ Hn)), abs_path_not_dot.
  rewrite (original_path_cs s _ Hcs), (splitpath_abs_path _ Hp _ _ Hn). cbv beta iota zeta.
  change (str_eqb (abs_path sp names) []) with false. cbv iota.
  destruct (resolve_ ex s (abs_path sp names) true) as [d|e]; cbn [rbind].
  2:{ split; [discriminate|]. intros (d & E & _). discriminate. }
  assert (Hne : n <> []) by (apply Forall_app in Hn; destruct Hn as [_ Hn]; inversion Hn as [|? ? H _]; apply H).
  apply str_eqb_neq in Hne. rewrite Hne, (get_entry_cs s d n Hcs).
  destruct (is_dirobj s d) eqn:Ed; cbn [negb].
  2:{ split; [discriminate|]. intros (d' & E & H & _). congruence. }
  destruct (has_bit (o_mode (ob s d)) PERM_READ) eqn:Eb; cbn [negb].
  2:{ split; [discriminate|]. intros (d' & E & _ & H & _). congruence. }
  split.
  - destruct (entry s d n) eqn:En; [|discriminate]. intros E; injection E as <-. exists d; auto.
  - intros (d' & E & _ & _ & H). injection E as <-. rewrite H. reflexivity.
Qed.

Lemma lresolve_root ex : lresolve_ ex s (abs_path sp []) = Ok root_oid.
Proof.
  unfold lresolve_, abs_path. cbn [join_with]. change (str_eqb [sp] []) with false. cbv iota.
  rewrite str_eqb_refl. reflexivity.
Qed.

Lemma lresolve_norec ex p :
  (forall names, Forall (ordinary sp) names -> ex (abs_path sp names) <> Err RecErr) ->
  lresolve_ ex s p <> Err RecErr.
Proof.
  intros Hex. unfold lresolve_. destruct (str_eqb p []); [discriminate|]. destruct (str_eqb p [sp]); [discriminate|].
  destruct (splitpath _ _) as [h t]. set (h' := if str_eqb h [] then f_cwd s else h).
  pose proof (resolve_norec ex h' true Hex) as Hr.
  destruct (resolve_ ex s h' true) as [d|e]; cbn [rbind]; [|intros E; apply Hr; injection E as ->; reflexivity].
  destruct (is_dirobj s d) eqn:Ed; cbn [negb]; [|unfold os_err; destruct (c_win (f_cfg s)); discriminate].
  destruct (has_bit _ _); cbn [negb]; [|discriminate]. destruct (str_eqb t []); [discriminate|].
  rewrite (get_entry_cs s d t Hcs), Ed. destruct (entry s d t); discriminate.
Qed.

Lemma raise_for_sep_norec ex p o f m :
  (forall names, Forall (ordinary sp) names -> ex (abs_path sp names) <> Err RecErr) ->
  raise_for_sep_ ex s p o f m <> Err RecErr.
Proof.
  intros Hex. unfold raise_for_sep_. rewrite (ll_win _ Hl), (ll_mac _ Hl). cbn [andb orb].
  destruct (ends_with_path_separator _ _); [|discriminate].
  destruct (S_ISLNK _).
  - pose proof (resolve_norec ex p true Hex) as Hr.
    destruct (resolve_ ex s p true) as [l|[]]; try discriminate; [|congruence].
    match goal with |- (if ?b then _ else _) <> _ => destruct b; discriminate end.
  - match goal with |- (if ?b then _ else _) <> _ => destruct b; discriminate end.
Qed.

Lemma is_of_type_norec ex p fl follow :
  (forall names, Forall (ordinary sp) names -> ex (abs_path sp names) <> Err RecErr) ->
  is_of_type_ ex s p fl follow <> Err RecErr.
Proof.
  intros Hex. unfold is_of_type_, resolve_any.
  assert (Hr : (if follow then resolve_ ex s p true else lresolve_ ex s p) <> Err RecErr).
  { destruct follow; [apply resolve_norec, Hex|apply lresolve_norec, Hex]. }
  destruct (if follow then resolve_ ex s p true else lresolve_ ex s p) as [o|e]; cbn [rbind].
  - pose proof (raise_for_sep_norec ex p o true (negb follow) Hex) as Hs.
    destruct (raise_for_sep_ ex s p o true (negb follow)) as [u|e]; cbn [rbind]; [discriminate|].
    destruct e; try discriminate. congruence.
  - destruct e; try discriminate. congruence.
Qed.

(** ** exists *)
Lemma exists_walk_tree d names : exists_walk s d names = match tree_at s d names with Some _ => true | None => false end.
Proof.
  revert d; induction names as [|n names IH]; intros d; [reflexivity|]. cbn [exists_walk tree_at].
  rewrite (directory_content_cs s d n Hcs). destruct (entry s d n); [apply IH|reflexivity].
Qed.

Lemma exists_body_norec ex p cl :
  (forall names, Forall (ordinary sp) names -> ex (abs_path sp names) <> Err RecErr) ->
  exists_body ex s p cl <> Err RecErr.
Proof.
  intros Hex. unfold exists_body.
  assert (H1 : (if cl then is_of_type_ ex s p S_IFLNK false else Ok false) <> Err RecErr)
    by (destruct cl; [apply is_of_type_norec, Hex|discriminate]).
  destruct (if cl then is_of_type_ ex s p S_IFLNK false else Ok false) as [[|]|e]; cbn [rbind]; [discriminate| |congruence].
  destruct (str_eqb p []); [discriminate|]. destruct (str_eqb p (devnull_name s)); [discriminate|].
  set (b := if ends_with_path_separator (f_cfg s) p then _ else _).
  assert (H2 : b <> Err RecErr)
    by (unfold b; destruct (ends_with_path_separator (f_cfg s) p); [apply is_of_type_norec, Hex|discriminate]).
  destruct b as [[|]|e]; cbn [rbind]; [discriminate| |destruct e; try discriminate; congruence].
  pose proof (resolve_path_norec s Hg ex p Hex) as H3.
  destruct (resolve_path_ ex s p) as [rp|e]; cbn [rbind]; [|destruct e; try discriminate; congruence].
  destruct (str_eqb rp [sp]); discriminate.
Qed.

Lemma exists_top_norec names : Forall (ordinary sp) names -> exists_top s (abs_path sp names) <> Err RecErr.
Proof.
  assert (H : forall k names, length names <= k -> Forall (ordinary sp) names -> exists_top s (abs_path sp names) <> Err RecErr).
  { intros k; induction k as [k IH] using lt_wf_ind. intros ns Hk Hn.
    rewrite (exists_top_eq s Hg ns Hn). unfold exists_.
    set (ex' := fun q => match exists_top s q with Err RecErr => Ok false | r => r end).
    rewrite (exists_body_agree s Hg (exists_top s) ex' (length ns) ns Hn (le_n _)).
    - apply exists_body_norec. intros a _. unfold ex'. destruct (exists_top s (abs_path sp a)) as [|[]]; discriminate.
    - intros a Ha Hla. unfold ex'. assert (Hx : exists_top s (abs_path sp a) <> Err RecErr) by (apply (IH (length a)); [lia|lia|exact Ha]).
      destruct (exists_top s (abs_path sp a)) as [b|[]]; try reflexivity. congruence. }
  apply (H (length names)). lia.
Qed.

(** existence of any path *)
Lemma exists_ok ex p : exists_body ex s p false = Ok true ->
  p = devnull_name s \/
  exists rr o, resolve_path_ ex s p = Ok (abs_path sp rr) /\ Forall (clean sp) rr /\ at_names s rr = Some o.
Proof.
  unfold exists_body. cbn [rbind]. destruct (str_eqb p []); [discriminate|].
  destruct (str_eqb_spec p (devnull_name s)) as [->|_]; [left; reflexivity|].
  set (b := if ends_with_path_separator (f_cfg s) p then _ else _). intros H; right.
  destruct b as [[|]|e]; cbn [rbind] in H; [discriminate| |destruct e; discriminate].
  destruct (resolve_path_ ex s p) as [rp|e] eqn:Er; cbn [rbind] in H; [|destruct e; discriminate].
  pose proof Er as Er2. apply resolve_path_ok in Er2. destruct Er2 as (_ & _ & names & rr & Hn & _ & Hr & ->).
  pose proof (resolved_clean names rr (Forall_clean _ _ Hn) Hr) as Hcl.
  rewrite (abs_path_root_eq _ _ Hcl), (path_components_clean _ Hl _ Hcl), exists_walk_tree in H.
  destruct rr as [|n rr].
  - exists [], root_oid; repeat split; constructor.
  - unfold at_names. destruct (tree_at s root_oid (n :: rr)) as [o|] eqn:E; [|discriminate]. exists (n :: rr), o; auto.
Qed.

Lemma exists_names ex names : Forall (ordinary sp) names ->
  exists_body ex s (abs_path sp names) false = Ok true <->
  (abs_path sp names = devnull_name s \/
   exists rr o, resolve_path_ ex s (abs_path sp names) = Ok (abs_path sp rr) /\ Forall (clean sp) rr /\ at_names s rr = Some o).
Proof.
  intros Hn. split; [apply exists_ok|]. unfold exists_body. cbn [rbind].
  change (str_eqb (abs_path sp names) []) with false. cbv iota.
  rewrite (ends_sep_clean _ Hl _ (Forall_clean _ _ Hn)). cbn [rbind].
  destruct (str_eqb_spec (abs_path sp names) (devnull_name s)) as [E|E]; [reflexivity|].
  intros [H|(rr & o & H & Hcl & Ho)]; [contradiction|]. rewrite H. cbn [rbind].
  rewrite (abs_path_root_eq _ _ Hcl), (path_components_clean _ Hl _ Hcl), exists_walk_tree.
  destruct rr; [reflexivity|]. unfold at_names in Ho. rewrite Ho. reflexivity.
Qed.

(** ** is_of_type on normalized paths *)
Lemma raise_for_sep_names ex names o f m : Forall (clean sp) names ->
  raise_for_sep_ ex s (abs_path sp names) o f m = Ok tt.
Proof. intros H. unfold raise_for_sep_. rewrite (ends_sep_clean _ Hl _ H). reflexivity. Qed.

Lemma is_of_type_names ex names fl follow : Forall (clean sp) names ->
  is_of_type_ ex s (abs_path sp names) fl follow = Ok true <->
  exists o, resolve_any ex s (abs_path sp names) follow true = Ok o /\ S_IFMT (o_mode (ob s o)) = fl.
Proof.
  intros H. unfold is_of_type_. destruct (resolve_any ex s (abs_path sp names) follow true) as [o|e]; cbn [rbind].
  - rewrite (raise_for_sep_names ex names o _ _ H). cbn [rbind]. split.
    + intros E. injection E as E. apply N.eqb_eq in E. exists o; auto.
    + intros (o' & E & Ho). injection E as <-. rewrite Ho, N.eqb_refl. reflexivity.
  - split; [destruct e; discriminate|]. intros (o' & E & _). discriminate.
Qed.
End Lookups.
