(** * Lookups in reachable states: answers, stability, consistency. *)
From Verif Require Export ParentInv LookupProofs.

(** ** C09: what lookups answer *)
Lemma reachable_GP c s : linux_like c -> reachable c s -> Ginv s /\ Pinv s.
Proof. intros Hl Hr. split; [apply (reachable_Ginv c), Hr; exact Hl|apply (reachable_Pinv c), Hr; exact Hl]. Qed.

Section Ans.
Variable s : fs.
Hypothesis HG : Ginv s.
Hypothesis HP : Pinv s.
Let Hg : good s := Ginv_good s HG.

Lemma lookup_ok_resolve_path p e : resolve_path s p = Err e -> lookup_exn e.
Proof. apply (resolve_path_exn s Hg), exists_top_ok, Hg. Qed.
Lemma lookup_ok_resolve p c e : resolve s p c = Err e -> lookup_exn e.
Proof. apply (resolve_exn_ok s Hg), exists_top_ok, Hg. Qed.
Lemma lookup_ok_lresolve p e : lresolve s p = Err e -> lookup_exn e.
Proof. apply (lresolve_exn_ok s Hg), exists_top_ok, Hg. Qed.
Lemma lookup_ok_follow p f c e : resolve_follow s p f c = Err e -> lookup_exn e.
Proof. unfold resolve_follow, resolve_any. destruct f; [apply lookup_ok_resolve|apply lookup_ok_lresolve]. Qed.
Lemma lookup_ok_raise p o f m e : raise_for_sep s p o f m = Err e -> lookup_exn e.
Proof. apply (raise_for_sep_exn s Hg), exists_top_ok, Hg. Qed.
Lemma lookup_ok_type p fl f e : is_of_type s p fl f = Err e -> e = AttrErr.
Proof. apply (is_of_type_exn s Hg), exists_top_ok, Hg. Qed.
Lemma lookup_ok_exists p cl e : exists_ s p cl = Err e -> e = AttrErr.
Proof. apply (exists_body_exn s Hg), exists_top_ok, Hg. Qed.
Lemma lookup_attr : lookup_exn AttrErr. Proof. right. reflexivity. Qed.
Lemma lookup_os e : lookup_exn (OSErr e). Proof. left. eexists. reflexivity. Qed.
Lemma lookup_ok_stat p f e : stat s (PStr p) f = Err e -> lookup_exn e.
Proof.
  unfold stat, stat_obj, resolve_arg. destruct (resolve_follow s p f false) as [o|e1] eqn:E1; cbn [rbind].
  2:{ intros [= <-]. apply (lookup_ok_follow _ _ _ _ E1). }
  assert (K : forall e, (if negb (is_root s) then match o_parent (ob s o) with
      | Some d => let* pp := obj_path s d in let* _ := get_object s pp true in Ok tt | None => Ok tt end else Ok tt) = Err e -> lookup_exn e).
  { intros e0. destruct (negb (is_root s)); [|discriminate]. destruct (o_parent (ob s o)) as [d|]; [|discriminate].
    destruct (obj_path_ok s d HG HP) as [pp Hpp]. rewrite Hpp. cbn [rbind].
    destruct (get_object s pp true) eqn:E2; cbn [rbind]; [discriminate|]. intros [= <-]. apply (get_object_exn s pp true _ Hg E2). }
  destruct (if negb (is_root s) then _ else _) as [u|e2]; cbn [rbind].
  2:{ intros [= <-]. apply K. reflexivity. }
  destruct (raise_for_sep s p o f false) as [[]|e3] eqn:E3; cbn [rbind]; [discriminate|].
  intros [= <-]. apply (lookup_ok_raise _ _ _ _ _ E3).
Qed.
Lemma lookup_ok_confirm p e : confirmdir s p = Err e -> lookup_exn e.
Proof.
  unfold confirmdir. destruct (resolve s p true) eqn:E; cbn [rbind].
  - destruct (negb _); [|discriminate]. intros [= <-]. apply lookup_os.
  - intros [= <-]. apply (lookup_ok_resolve _ _ _ E).
Qed.
Lemma lookup_ok_listdir p e : listdir s (PStr p) = Err e -> lookup_exn e.
Proof.
  unfold listdir, resolve_path_arg. destruct (resolve_path s p) as [r|] eqn:E; cbn [rbind].
  2:{ intros [= <-]. apply (lookup_ok_resolve_path _ _ E). }
  destruct (confirmdir s r) as [d|] eqn:E2; cbn [rbind].
  2:{ intros [= <-]. apply (lookup_ok_confirm _ _ E2). }
  destruct (o_body (ob s d)); [discriminate|]. intros [= <-]. apply lookup_attr.
Qed.
Lemma lookup_ok_text o e : text_contents s o = Err e -> e = AttrErr.
Proof. unfold text_contents. destruct (o_body (ob s o)) as [|[d|]]; congruence. Qed.
Lemma lookup_ok_readlink p e : readlink s p = Err e -> lookup_exn e.
Proof.
  assert (Hx : forall o e, text_contents s o = Err e -> lookup_exn e).
  { intros o e0 K. rewrite (lookup_ok_text _ _ K). apply lookup_attr. }
  unfold readlink. destruct (lresolve s p) as [o|] eqn:E; cbn [rbind].
  2:{ intros [= <-]. apply (lookup_ok_lresolve _ _ E). }
  destruct (negb (N.eqb _ _)); [intros [= <-]; apply lookup_os|].
  rewrite (ll_win _ (gi_lin s HG)), (ll_mac _ (gi_lin s HG)). cbn [negb andb].
  destruct (ends_with_path_separator (f_cfg s) p); [|apply Hx].
  destruct (exists_ s p false) as [[]|] eqn:E1; cbn [rbind].
  - intros [= <-]; apply lookup_os.
  - destruct (obj_path_ok s o HG HP) as [lp Hlp]. rewrite Hlp. cbn [rbind].
    destruct (exists_ s lp false) as [[]|] eqn:E2; cbn [rbind negb].
    + apply Hx.
    + unfold is_circular_link. destruct (text_contents s o) as [t|] eqn:E3; cbn [rbind].
      * destruct (resolve_path s t) as [|e4] eqn:E4; cbn [rbind].
        -- intros [= <-]; apply lookup_os.
        -- assert (K := lookup_ok_resolve_path _ _ E4). destruct e4 as [en| | | | | | | | | |]; cbn [rbind]; try (intros [= <-]; exact K).
           destruct en; cbn [rbind]; intros [= <-]; apply lookup_os.
      * intros [= <-]. apply (Hx _ _ E3).
    + intros [= <-]. rewrite (lookup_ok_exists _ _ _ E2). apply lookup_attr.
  - intros [= <-]. rewrite (lookup_ok_exists _ _ _ E1). apply lookup_attr.
Qed.
End Ans.

(** ** C10: stability *)
Lemma at_names_ordinary s : Ginv s -> forall names d o, tree_at s d names = Some o -> Forall (ordinary (sepc s)) names.
Proof.
  intros H. induction names as [|n names IH]; intros d o K; [constructor|]. cbn [tree_at] in K.
  destruct (entry s d n) as [x|] eqn:E; [|discriminate]. constructor; [|apply (IH x o K)].
  apply (gi_ent s H d n x), entry_In, E.
Qed.
Lemma linkfree_resolved s names : (forall pre n l rest, ~ meets_link s names pre n l rest) -> resolved s names names.
Proof.
  intros H. destruct (is_null_dec s names) as [K|K]; [left; split; [exact K|reflexivity]|]. right. split; [exact K|].
  exists 0. split; [lia|]. apply res_done, H.
Qed.
Lemma linkfree_prefix s a b : (forall pre n l rest, ~ meets_link s (a ++ b) pre n l rest) ->
  forall pre n l rest, ~ meets_link s a pre n l rest.
Proof.
  intros H pre n l rest (E & K1 & K2). apply (H pre n l (rest ++ b)). split; [|split; assumption].
  rewrite E, <- app_assoc. reflexivity.
Qed.
Lemma linkfree_resolve_path s : Ginv s -> forall k names o, length names <= k -> at_names s names = Some o ->
  (forall pre n l rest, ~ meets_link s names pre n l rest) ->
  resolve_path s (abs_path (sepc s) names) = Ok (abs_path (sepc s) names).
Proof.
  intros H. assert (Hg := Ginv_good s H). induction k as [|k IH]; intros names o Hk Ho Hl.
  - destruct names; [|cbn in Hk; lia]. apply (resolve_path_ok s Hg). split; [discriminate|]. split.
    + apply rfind_none_valid. apply (rfind_plain (sepc s) []); [apply (ll_sep _ (gi_lin s H))|split; constructor].
    + exists [], []. split; [constructor|]. split; [apply anp_abs_path; [exact Hg|constructor]|]. split; [|reflexivity].
      apply linkfree_resolved, Hl.
  - assert (Hord := at_names_ordinary s H names root_oid o Ho).
    apply (resolve_path_ok s Hg). split; [discriminate|]. split.
    + assert (V : forall fuel names, length names <= S k -> length (abs_path (sepc s) names) <= fuel -> at_names s names <> None ->
        (forall pre n l rest, ~ meets_link s names pre n l rest) ->
        valid_rel (exists_top s) fuel s (abs_path (sepc s) names) = Ok true).
      { induction fuel as [|fuel IHf]; intros nm Hnk Hf Hat Hnl.
        - cbn in Hf. lia.
        - assert (Ho2 : Forall (ordinary (sepc s)) nm).
          { destruct (at_names s nm) as [x|] eqn:Ex; [|congruence]. apply (at_names_ordinary s H nm root_oid x Ex). }
          cbn [valid_rel]. rewrite (ll_win _ (gi_lin s H)).
          destruct (rfind_pre [sepc s; dotc; dotc] (abs_path (sepc s) nm)) as [pre|] eqn:Er; [|reflexivity].
          destruct (rfind_up_abs (sepc s) nm pre Ho2 Er) as (a & b & Eab & Hb & Hpre).
          assert (Hsh : length pre < length (abs_path (sepc s) nm)) by (apply (rfind_pre_shorter [sepc s; dotc; dotc]); [discriminate|exact Er]).
          assert (Hla : length a <= k). { rewrite Eab, app_length in Hnk. destruct b; [congruence|]. cbn in Hnk. lia. }
          destruct (at_names s nm) as [x|] eqn:Ex; [|congruence]. rewrite Eab in Ex. unfold at_names in Ex.
          destruct (tree_at_prefix s root_oid a b x Ex) as [y Hy].
          assert (Hoa : Forall (ordinary (sepc s)) a) by (apply (at_names_ordinary s H a root_oid y Hy)).
          assert (Hnla : forall pre n l rest, ~ meets_link s a pre n l rest).
          { apply (linkfree_prefix s a b). rewrite <- Eab. exact Hnl. }
          assert (Hex : exists_top s (abs_path (sepc s) a) = Ok true).
          { rewrite (exists_top_eq s Hg a Hoa). apply (exists_names s Hg (exists_top s) a Hoa). right.
            exists a, y. split; [|split; [apply Forall_clean, Hoa|exact Hy]]. apply (IH a y Hla Hy Hnla). }
          destruct Hpre as [-> | [-> ->]].
          + rewrite (anp_abs_path s a Hg Hoa), Hex. cbn [rbind]. apply IHf; [lia|lia|unfold at_names; congruence|exact Hnla].
          + rewrite (anp_nil s Hg), Hex. cbn [rbind]. destruct fuel; cbn [valid_rel]; rewrite (ll_win _ (gi_lin s H)); reflexivity. }
      apply V; [exact Hk|lia|congruence|exact Hl].
    + exists names, names. split; [exact Hord|]. split; [apply anp_abs_path; assumption|]. split; [|reflexivity].
      apply linkfree_resolved, Hl.
Qed.
Lemma resolve_path_shape s p r : Ginv s -> resolve_path s p = Ok r ->
  exists rr, r = abs_path (sepc s) rr /\ Forall (clean (sepc s)) rr /\
    (is_null s rr \/ forall pre n l rest, ~ meets_link s rr pre n l rest).
Proof.
  intros H E. assert (Hg := Ginv_good s H). apply (resolve_path_ok s Hg) in E.
  destruct E as (_ & _ & names & rr & Hn & _ & Hr & ->). exists rr. split; [reflexivity|].
  split; [apply (resolved_clean s Hg names); [apply Forall_clean, Hn|exact Hr]|].
  destruct Hr as [[K ->]|[_ (k & _ & Hk)]]; [left; exact K|right; apply (resolves_nolink s k names rr Hk)].
Qed.
Lemma prefix_dirs s pre n rest o : at_names s (pre ++ n :: rest) = Some o ->
  exists d, at_names s pre = Some d /\ is_dirobj s d = true.
Proof.
  unfold at_names. rewrite tree_at_app. destruct (tree_at s root_oid pre) as [d|]; [|discriminate].
  intros K. exists d. split; [reflexivity|]. apply (tree_at_dirobj s d n rest o K).
Qed.

Lemma resolve_path_stable s p r rr o : Ginv s -> resolve_path s p = Ok r -> r = abs_path (sepc s) rr ->
  Forall (clean (sepc s)) rr -> r <> devnull_name s -> at_names s rr = Some o ->
  (forall pre n l rest, ~ meets_link s rr pre n l rest) /\ resolve_path s r = Ok r.
Proof.
  intros H E -> Hc Hnn Ho. destruct (resolve_path_shape s p _ H E) as (rr' & E' & Hc' & K).
  assert (rr = rr') by (apply (abs_path_clean_inj (f_cfg s) (gi_lin s H)); assumption). subst rr'.
  destruct K as [[_ K]|K]; [contradiction|]. split; [exact K|].
  apply (linkfree_resolve_path s H (length rr) rr o); [lia|exact Ho|exact K].
Qed.

(** ** C11 *)


(** the object found by a path other than the null device *)
Lemma resolve_at s p c o : Ginv s -> resolve s p c = Ok o -> resolve_path s p <> Ok (devnull_name s) ->
  exists rr, resolve_path s p = Ok (abs_path (sepc s) rr) /\ Forall (clean (sepc s)) rr /\ at_names s rr = Some o /\
    (forall pre n l rest, ~ meets_link s rr pre n l rest).
Proof.
  intros H E Hn. assert (Hg := Ginv_good s H). apply (resolve_ok s Hg) in E.
  destruct E as (rr & E & Hc & [[[_ K] _]|(Hnn & Ho & _)]); [unfold resolve_path in Hn; congruence|].
  exists rr. split; [exact E|]. split; [exact Hc|]. split; [exact Ho|].
  assert (Hr : abs_path (sepc s) rr <> devnull_name s) by (intros K; apply Hn; unfold resolve_path; rewrite E, K; reflexivity).
  apply (resolve_path_stable s p _ rr o H E eq_refl Hc Hr Ho).
Qed.
Lemma resolve_nolink s p c o : Ginv s -> resolve s p c = Ok o -> resolve_path s p <> Ok (devnull_name s) -> is_link s o = false.
Proof.
  intros H E Hn. assert (Hg := Ginv_good s H). destruct (resolve_at s p c o H E Hn) as (rr & _ & _ & Ho & K).
  apply (nolink_prefixes s Hg rr K rr [] o); [rewrite app_nil_r; reflexivity|exact Ho].
Qed.
Lemma norm_walk_check rl s names : forall d o, norm_walk rl s false d names = Ok o ->
  norm_walk rl s true d names = Ok o \/ norm_walk rl s true d names = os_err EACCES.
Proof.
  induction names as [|n names IH]; intros d o K; [left; exact K|]. cbn [norm_walk] in *.
  destruct (if S_ISLNK (o_mode (ob s d)) then _ else _) as [t|e]; cbn [rbind] in *; [|discriminate].
  destruct (negb (S_ISDIR (o_mode (ob s t)))); [discriminate|].
  destruct (get_entry s t n) as [x|[]]; try discriminate.
  rewrite andb_false_r in K. cbn [andb] in K. destruct (_ && _); [right; reflexivity|]. apply IH, K.
Qed.
Lemma resolve_check s p o : resolve s p false = Ok o -> resolve s p true = Ok o \/ resolve s p true = os_err EACCES.
Proof.
  unfold resolve, resolve_. destruct (resolve_path_ (exists_top s) s p) as [r|]; cbn [rbind]; [|discriminate].
  unfold get_norm. destruct (str_eqb r [sepc s]); [auto|]. destruct (str_eqb r (devnull_name s)); [auto|]. apply norm_walk_check.
Qed.
Lemma strip_ends s n p : length p <= n -> ends_with_path_separator (f_cfg s) (strip_seps (f_cfg s) n p) = false \/ p = [].
Proof.
  revert p. induction n as [|n IH]; intros p Hn; [right; destruct p; [reflexivity|cbn in Hn; lia]|]. cbn [strip_seps].
  destruct (ends_with_path_separator (f_cfg s) p) eqn:E; [|left; exact E].
  destruct p as [|c p]; [right; reflexivity|]. left.
  assert (Hl : length (removelast (c :: p)) <= n).
  { rewrite removelast_firstn_len, firstn_length. cbn in *. lia. }
  destruct (IH _ Hl) as [K|K]; [exact K|]. rewrite K. destruct n; reflexivity.
Qed.
Lemma found_exists s p c o : Ginv s -> resolve s p c = Ok o -> resolve_path s p <> Ok (devnull_name s) ->
  raise_for_sep s p o true false = Ok tt -> exists_ s p false = Ok true.
Proof.
  intros H E Hn Hs. assert (Hg := Ginv_good s H). destruct (resolve_at s p c o H E Hn) as (rr & Er & Hc & Ho & _).
  assert (Hnl := resolve_nolink s p c o H E Hn). unfold exists_, exists_body. cbn [rbind].
  destruct (str_eqb p []) eqn:Ep; [apply str_eqb_eq in Ep; subst p; discriminate|].
  destruct (str_eqb p (devnull_name s)); [reflexivity|].
  assert (K : (if ends_with_path_separator (f_cfg s) p
               then is_of_type_ (exists_top s) s (path_without_trailing_separators (f_cfg s) p) S_IFREG true else Ok false) = Ok false).
  { destruct (ends_with_path_separator (f_cfg s) p) eqn:Ee; [|reflexivity].
    unfold is_of_type_, resolve_any. rewrite (resolve_strip s Hg (exists_top s) p true).
    assert (Hd : S_ISDIR (o_mode (ob s o)) = true).
    { unfold raise_for_sep, raise_for_sep_ in Hs. rewrite Ee, (ll_win _ (gi_lin s H)), (ll_mac _ (gi_lin s H)) in Hs.
      unfold is_link in Hnl. rewrite Hnl in Hs. cbn [andb] in Hs. destruct (S_ISDIR (o_mode (ob s o))); [reflexivity|discriminate]. }
    assert (Ht : resolve_ (exists_top s) s p true = Ok o \/ resolve_ (exists_top s) s p true = os_err EACCES).
    { destruct c; [left; exact E|apply resolve_check, E]. }
    destruct Ht as [-> | ->]; [|reflexivity]. cbn [rbind].
    unfold raise_for_sep_. replace (ends_with_path_separator (f_cfg s) (path_without_trailing_separators (f_cfg s) p)) with false.
    2:{ symmetry. destruct (strip_ends s (length p) p (le_n _)) as [K|K]; [exact K|]. subst p. discriminate. }
    cbn [rbind]. f_equal. apply N.eqb_neq. intros Q. unfold S_ISDIR in Hd. rewrite Q in Hd. discriminate. }
  rewrite K. cbn [rbind]. unfold resolve_path in Er. rewrite Er. cbn [rbind].
  destruct (str_eqb (abs_path (sepc s) rr) [sepc s]); [reflexivity|].
  rewrite (path_components_clean (f_cfg s) (gi_lin s H) rr Hc), exists_walk_tree; [|exact Hg].
  unfold at_names in Ho. rewrite Ho. reflexivity.
Qed.
Lemma type_exists s p fl : Ginv s -> is_of_type s p fl true = Ok true -> resolve_path s p <> Ok (devnull_name s) ->
  exists_ s p false = Ok true.
Proof.
  intros H E Hn. unfold is_of_type, is_of_type_, resolve_any in E.
  destruct (resolve_ (exists_top s) s p true) as [o|e] eqn:E1; cbn [rbind] in E; [|destruct e; discriminate].
  destruct (raise_for_sep_ (exists_top s) s p o true (negb true)) as [[]|e] eqn:E2; cbn [rbind] in E; [|destruct e; discriminate].
  apply (found_exists s p true o H E1 Hn E2).
Qed.
Lemma stat_exists s p st : Ginv s -> stat s (PStr p) true = Ok st -> resolve_path s p <> Ok (devnull_name s) ->
  exists_ s p false = Ok true.
Proof.
  intros H E Hn. unfold stat, stat_obj, resolve_arg, resolve_follow, resolve_any in E.
  destruct (resolve_ (exists_top s) s p false) as [o|e] eqn:E1; cbn [rbind] in E; [|discriminate].
  destruct (if negb (is_root s) then _ else _) as [u|]; cbn [rbind] in E; [|discriminate].
  destruct (raise_for_sep s p o true false) as [[]|e] eqn:E2; cbn [rbind] in E; [|discriminate].
  apply (found_exists s p false o H E1 Hn E2).
Qed.
(** for the super user, the three questions are answered by stat *)
Lemma resolve_root_check s p : is_root s = true -> resolve s p true = resolve s p false.
Proof.
  intros Hr. unfold resolve, resolve_. destruct (resolve_path_ (exists_top s) s p) as [r|]; cbn [rbind]; [|reflexivity].
  unfold get_norm. destruct (str_eqb r _); [reflexivity|]. destruct (str_eqb r _); [reflexivity|].
  assert (K : forall rl names d, norm_walk rl s true d names = norm_walk rl s false d names).
  { intros rl. induction names as [|n names IH]; intros d; [reflexivity|]. cbn [norm_walk].
    destruct (if S_ISLNK (o_mode (ob s d)) then _ else _) as [t|e]; cbn [rbind]; [|reflexivity].
    destruct (negb (S_ISDIR (o_mode (ob s t)))); [reflexivity|]. rewrite Hr. cbn [negb andb].
    destruct (get_entry s t n) as [x|[]]; try reflexivity. apply IH. }
  apply K.
Qed.
Lemma type_is_stat s p fl : is_root s = true ->
  (is_of_type s p fl true = Ok true <-> exists st, stat s (PStr p) true = Ok st /\ S_IFMT (ss_mode st) = fl).
Proof.
  intros Hr. unfold is_of_type, is_of_type_, stat, stat_obj, resolve_arg, resolve_follow, resolve_any, raise_for_sep.
  assert (K := resolve_root_check s p Hr). unfold resolve in K. rewrite K. clear K. rewrite Hr. cbn [negb].
  destruct (resolve_ (exists_top s) s p false) as [o|e]; cbn [rbind].
  2:{ split; [destruct e; discriminate|]. intros (st & Q & _). discriminate. }
  destruct (raise_for_sep_ (exists_top s) s p o true false) as [[]|e]; cbn [rbind].
  2:{ split; [destruct e; discriminate|]. intros (st & Q & _). discriminate. }
  split.
  - intros Q. exists (stat_of s o). split; [reflexivity|]. injection Q as Q. apply N.eqb_eq in Q. exact Q.
  - intros (st & Q & Q2). injection Q as <-. cbn in Q2. rewrite Q2, N.eqb_refl. reflexivity.
Qed.
Lemma islink_iff s names n : Ginv s -> Forall (ordinary (sepc s)) (names ++ [n]) ->
  islink s (abs_path (sepc s) (names ++ [n])) = Ok true <->
  exists d o, resolve s (abs_path (sepc s) names) true = Ok d /\ has_bit (o_mode (ob s d)) PERM_READ = true /\
    entry s d n = Some o /\ is_link s o = true.
Proof.
  intros H Ho. assert (Hg := Ginv_good s H). unfold islink, is_of_type.
  rewrite (is_of_type_names s Hg (exists_top s) _ S_IFLNK false (Forall_clean _ _ Ho)). unfold resolve_any. split.
  - intros (o & E & Q). apply (lresolve_snoc s Hg _ _ _ _ Ho) in E. destruct E as (d & E & _ & Hb & He).
    exists d, o. split; [exact E|]. split; [exact Hb|]. split; [exact He|]. apply N.eqb_eq, Q.
  - intros (d & o & E & Hb & He & Q). exists o. split; [|apply N.eqb_eq, Q]. apply (lresolve_snoc s Hg _ _ _ _ Ho).
    exists d. split; [exact E|]. split; [apply (entry_dirobj s d n o He)|]. split; assumption.
Qed.
Lemma dangling_islink s p : exists_ s p true = Ok true -> exists_ s p false = Ok false -> islink s p = Ok true.
Proof.
  unfold exists_, exists_body, islink, is_of_type. cbn [rbind].
  destruct (is_of_type_ (exists_top s) s p S_IFLNK false) as [[]|]; cbn [rbind]; congruence.
Qed.
Lemma type_unique s p a b : is_of_type s p a true = Ok true -> is_of_type s p b true = Ok true -> a = b.
Proof.
  unfold is_of_type, is_of_type_. destruct (resolve_any _ s p true true) as [o|e]; cbn [rbind]; [|destruct e; discriminate].
  destruct (raise_for_sep_ _ s p o true _) as [[]|e]; cbn [rbind]; [|destruct e; discriminate].
  intros [= A] [= B]. apply N.eqb_eq in A, B. congruence.
Qed.

(** ** The theorems of PropRes.v *)
Lemma answers_of {A} (r : res A) : (forall e, r = Err e -> lookup_exn e) -> answers r.
Proof.
  intros H. destruct r as [x|e]; [left; eexists; reflexivity|].
  destruct (H e eq_refl) as [[en ->]| ->]; [right; left; eexists; reflexivity|right; right; reflexivity].
Qed.
Lemma answers_bool_of (r : res bool) : (forall e, r = Err e -> e = AttrErr) -> answers_bool r.
Proof. intros H. destruct r as [x|e]; [left; eexists; reflexivity|]. right. rewrite (H e eq_refl). reflexivity. Qed.
Lemma lookups_answer c s : linux_like c -> reachable c s -> forall p follow check flag,
  answers (resolve_path s p) /\ answers (resolve_follow s p follow check) /\
  answers (get_object s p check) /\ answers (stat s (PStr p) follow) /\
  answers (listdir s (PStr p)) /\ answers (readlink s p) /\
  answers_bool (exists_ s p follow) /\ answers_bool (is_of_type s p flag follow).
Proof.
  intros Hl Hr p f ck fl. destruct (reachable_GP c s Hl Hr) as [G P].
  split; [apply answers_of, (lookup_ok_resolve_path s G)|].
  split; [apply answers_of, (lookup_ok_follow s G)|].
  split; [apply answers_of; intros e; apply (get_object_exn s p ck e (Ginv_good s G))|].
  split; [apply answers_of, (lookup_ok_stat s G P)|].
  split; [apply answers_of, (lookup_ok_listdir s G)|].
  split; [apply answers_of, (lookup_ok_readlink s G P)|].
  split; [apply answers_bool_of, (lookup_ok_exists s G)|apply answers_bool_of, (lookup_ok_type s G)].
Qed.
Lemma link_bound c s : linux_like c -> reachable c s -> forall p r, resolve_path s p = Ok r ->
  exists names rr, walk_pos (sepc s) (walk_pos (sepc s) [] (f_cwd s)) p = rev names /\
    r = abs_path (sepc s) rr /\ resolved s names rr.
Proof.
  intros Hl Hr p r E. assert (G := reachable_Ginv c s Hl Hr). assert (Hg := Ginv_good s G).
  apply (resolve_path_ok s Hg) in E. destruct E as (Hp & _ & names & rr & Hn & Ha & Hres & ->).
  exists names, rr. split; [|split; [reflexivity|exact Hres]].
  destruct (absnormpath_all (f_cfg s) (linux_like_abs _ (gi_lin s G)) (f_cwd s) p (gi_cwd s G)) as (_ & _ & _ & K).
  rewrite <- (K Hp []). unfold anp in Ha. rewrite Ha. unfold abs_path.
  assert (Hcl := proj1 (Forall_forall _ _) (Forall_clean _ _ Hn)).
  rewrite (walk_abs_path (f_cfg s)); [|intros w Hw; apply Hcl, Hw].
  rewrite (den_ordinary (f_cfg s)) by exact Hn. apply app_nil_r.
Qed.
Lemma loop_eloop c s : linux_like c -> reachable c s -> honest_links s -> forall names,
  plain (sepc s) names -> ~ is_null s names -> (forall k r, k <= 41 -> ~ resolves s k names r) ->
  resolve_path s (abs_path (sepc s) names) = os_err ELOOP /\
  exists_ s (abs_path (sepc s) names) false = Ok false /\
  (forall check, resolve s (abs_path (sepc s) names) check = os_err ELOOP) /\
  (forall flag, is_of_type s (abs_path (sepc s) names) flag true = Ok false) /\
  stat s (PStr (abs_path (sepc s) names)) true = os_err ELOOP.
Proof.
  intros Hl Hr Hh names Hp Hn Hk. assert (G := reachable_Ginv c s Hl Hr). assert (Hg := Ginv_good s G).
  assert (E := resolve_path_eloop s names Hg Hh Hp Hn Hk).
  assert (R : forall check, resolve s (abs_path (sepc s) names) check = os_err ELOOP).
  { intros ck. unfold resolve, resolve_. unfold resolve_path in E. rewrite E. reflexivity. }
  split; [exact E|]. split; [|split; [exact R|split]].
  - destruct (exists_ s (abs_path (sepc s) names) false) as [[]|e] eqn:Ex.
    + apply (exists_plain s names Hg Hp) in Ex. destruct Ex as [K|(rr & o & Hres & Ho)]; [contradiction|].
      assert (K : resolve_path s (abs_path (sepc s) names) = Ok (abs_path (sepc s) rr)).
      { apply (resolve_path_plain s names Hg Hp). exists rr. split; [exact Hres|reflexivity]. }
      rewrite E in K. discriminate.
    + reflexivity.
    + exfalso. unfold exists_, exists_body in Ex. cbn [rbind] in Ex.
      destruct (str_eqb _ []) in Ex; [discriminate|]. destruct (str_eqb _ (devnull_name s)) in Ex; [discriminate|].
      assert (Hc : Forall (clean (sepc s)) names) by (apply Forall_clean, Hp).
      rewrite (ends_sep_clean (f_cfg s) (gi_lin s G) names Hc) in Ex. cbn [rbind] in Ex.
      unfold resolve_path in E. rewrite E in Ex. cbn [rbind os_err] in Ex. discriminate.
  - intros fl. unfold is_of_type, is_of_type_, resolve_any. assert (R1 := R true). unfold resolve in R1. rewrite R1. reflexivity.
  - unfold stat, stat_obj, resolve_arg, resolve_follow, resolve_any. assert (R1 := R false). unfold resolve in R1. rewrite R1. reflexivity.
Qed.
Lemma resolved_stable c s : linux_like c -> reachable c s ->
  forall p r, resolve_path s p = Ok r -> r <> devnull_name s ->
  exists rr, r = abs_path (sepc s) rr /\ Forall (clean (sepc s)) rr /\
    (forall pre n l rest, ~ meets_link s rr pre n l rest) /\
    (forall o, at_names s rr = Some o ->
       (forall pre n rest, rr = pre ++ n :: rest -> exists d, at_names s pre = Some d /\ is_dirobj s d = true) /\
       resolve_path s r = Ok r).
Proof.
  intros Hl Hr p r E Hn. assert (G := reachable_Ginv c s Hl Hr).
  destruct (resolve_path_shape s p r G E) as (rr & -> & Hc & K). exists rr. split; [reflexivity|]. split; [exact Hc|].
  assert (Kl : forall pre n l rest, ~ meets_link s rr pre n l rest).
  { destruct K as [[_ K]|K]; [contradiction|exact K]. }
  split; [exact Kl|]. intros o Ho. split.
  - intros pre n rest ->. apply (prefix_dirs s pre n rest o Ho).
  - apply (linkfree_resolve_path s G (length rr) rr o); [lia|exact Ho|exact Kl].
Qed.
Lemma resolved_object c s : linux_like c -> reachable c s ->
  forall p check o, resolve s p check = Ok o -> resolve_path s p <> Ok (devnull_name s) ->
  exists rr, resolve_path s p = Ok (abs_path (sepc s) rr) /\ at_names s rr = Some o /\ is_link s o = false.
Proof.
  intros Hl Hr p ck o E Hn. assert (G := reachable_Ginv c s Hl Hr).
  destruct (resolve_at s p ck o G E Hn) as (rr & Er & _ & Ho & _). exists rr. split; [exact Er|]. split; [exact Ho|].
  apply (resolve_nolink s p ck o G E Hn).
Qed.
Lemma found_implies_exists c s : linux_like c -> reachable c s ->
  forall p, resolve_path s p <> Ok (devnull_name s) ->
  (isdir s p true = Ok true -> exists_ s p false = Ok true) /\
  (isfile s p true = Ok true -> exists_ s p false = Ok true) /\
  (forall st, stat s (PStr p) true = Ok st -> exists_ s p false = Ok true).
Proof.
  intros Hl Hr p Hn. assert (G := reachable_Ginv c s Hl Hr). split; [|split].
  - intros E. apply (type_exists s p S_IFDIR G E Hn).
  - intros E. apply (type_exists s p S_IFREG G E Hn).
  - intros st E. apply (stat_exists s p st G E Hn).
Qed.
Lemma not_both_types s p : isdir s p true = Ok true -> isfile s p true <> Ok true.
Proof. intros A B. assert (K := type_unique s p _ _ A B). discriminate. Qed.
Lemma islink_entry c s : linux_like c -> reachable c s ->
  forall names n, Forall (ordinary (sepc s)) (names ++ [n]) ->
  islink s (abs_path (sepc s) (names ++ [n])) = Ok true <->
  exists d o, resolve s (abs_path (sepc s) names) true = Ok d /\
    has_bit (o_mode (ob s d)) PERM_READ = true /\ entry s d n = Some o /\ is_link s o = true.
Proof. intros Hl Hr names n. apply (islink_iff s names n (reachable_Ginv c s Hl Hr)). Qed.
Lemma null_spelling : exists s p, reachable posix_cfg s /\ isfile s p true = Ok true /\ exists_ s p false = Ok false.
Proof.
  exists (run (init posix_cfg None 18 0 0 0) []), (L "/dev/./null"). split; [|split; vm_compute; reflexivity].
  exists None, 18%N, 0%Z, 0%Z, 0%Z, []. reflexivity.
Qed.
