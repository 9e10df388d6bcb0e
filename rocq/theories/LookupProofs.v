(** * Lookups of arbitrary path strings (C09-C11). *)
From Verif Require Export GraphIo.

(** ** A trailing separator does not change where a path leads *)
Lemma rfind_pre_app_sep sp p : sp <> dotc ->
  rfind_pre [sp; dotc; dotc] (p ++ [sp]) = rfind_pre [sp; dotc; dotc] p.
Proof.
  intros Hd. induction p as [|x p IH].
  - cbn. rewrite Ascii.eqb_refl. reflexivity.
  - cbn [app rfind_pre]. rewrite IH. destruct (rfind_pre _ p); [reflexivity|].
    assert (E : starts_with [sp; dotc; dotc] (x :: p ++ [sp]) = starts_with [sp; dotc; dotc] (x :: p)).
    { assert (K : Ascii.eqb dotc sp = false) by (apply Ascii.eqb_neq; congruence).
      cbn [starts_with]. destruct (Ascii.eqb sp x); [|reflexivity].
      destruct p as [|y p]; cbn [starts_with app]; [rewrite K; reflexivity|]. destruct (Ascii.eqb dotc y); [|reflexivity].
      destruct p as [|z p]; cbn [starts_with app]; [rewrite K|]; reflexivity. }
    rewrite E. reflexivity.
Qed.

Lemma rfind_pre_shorter pat p pre : pat <> [] -> rfind_pre pat p = Some pre -> length pre < length p.
Proof.
  intros Hn E. apply rfind_pre_spec in E. destruct E as [t ->]. rewrite !app_length.
  destruct pat; [congruence|]. cbn [length]. lia.
Qed.
Lemma valid_rel_fuel ex s f1 : forall f2 p, length p <= f1 -> length p <= f2 -> valid_rel ex f1 s p = valid_rel ex f2 s p.
Proof.
  induction f1 as [|f1 IH]; intros f2 p H1 H2.
  - destruct p as [|x p]; [|cbn in H1; lia]. destruct f2; reflexivity.
  - destruct f2 as [|f2]; [destruct p as [|x p]; [reflexivity|cbn in H2; lia]|].
    cbn [valid_rel]. destruct (c_win _); [reflexivity|].
    destruct (rfind_pre _ p) as [pre|] eqn:E; [|reflexivity].
    assert (L1 := rfind_pre_shorter _ p pre (ltac:(intros K0; discriminate K0) : [sepc s; dotc; dotc] <> []) E).
    destruct (ex (anp s pre)) as [b|e]; cbn [rbind]; [|reflexivity]. destruct b; [|reflexivity]. apply IH; lia.
Qed.

Section Strip.
Variable s : fs.
Hypothesis Hg : good s.
Notation sp := (sepc s).

Lemma ends_sep_inv p : ends_with_path_separator (f_cfg s) p = true -> exists q, p = q ++ [sp] /\ q <> [].
Proof.
  unfold ends_with_path_separator, sep. rewrite (ll_alt _ (gd_lin s Hg)). rewrite orb_false_r.
  intros H. apply andb_true_iff in H. destruct H as [H He]. apply andb_true_iff in H. destruct H as [H _].
  apply andb_true_iff in H. destruct H as [_ H]. apply negb_true_iff, str_eqb_neq in H.
  apply ends_with_char_spec in He. destruct He as [q ->]. exists q. split; [reflexivity|]. intros ->. apply H. reflexivity.
Qed.

Lemma walk_trailing st q : q <> [] -> walk_pos sp st (q ++ [sp]) = walk_pos sp st q.
Proof.
  intros Hq. unfold walk_pos. rewrite split_on_app_mid, fold_left_app.
  assert (E : is_abs sp (q ++ [sp]) = is_abs sp q) by (destruct q; [congruence|reflexivity]). rewrite E. reflexivity.
Qed.

Lemma anp_trailing q : q <> [] -> anp s (q ++ [sp]) = anp s q.
Proof.
  intros Hq. pose proof (linux_like_posix _ (gd_lin s Hg)) as Hp. pose proof (linux_like_abs _ (gd_lin s Hg)) as Ha.
  pose proof (gd_cwd s Hg) as Hc. unfold anp.
  destruct (absnormpath_all _ Ha (f_cwd s) (q ++ [sp]) Hc) as (A1 & C1 & _).
  destruct (absnormpath_all _ Ha (f_cwd s) q Hc) as (A2 & C2 & _).
  apply (canonical_unique (f_cfg s) Hp); try assumption; [congruence|].
  intros st. rewrite !(absnormpath_walk _ Hp _ _ _ Ha Hc).
  destruct q as [|x q]; [congruence|]. cbn [app]. change (x :: q ++ [sp]) with ((x :: q) ++ [sp]).
  apply walk_trailing. discriminate.
Qed.

Lemma resolve_path_trailing ex q : q <> [] -> resolve_path_ ex s (q ++ [sp]) = resolve_path_ ex s q.
Proof.
  intros Hq. unfold resolve_path_. rewrite !(original_path_cs s _ (ll_cs _ (gd_lin s Hg))), (anp_trailing q Hq).
  assert (E1 : str_eqb (q ++ [sp]) [] = false) by (destruct q; reflexivity).
  assert (E2 : str_eqb q [] = false) by (destruct q; [congruence|reflexivity]). rewrite E1, E2.
  assert (Ev : valid_rel ex (length (q ++ [sp])) s (q ++ [sp]) = valid_rel ex (length q) s q).
  { destruct q as [|x q]; [congruence|].
    assert (Ha : forall f, valid_rel ex (S f) s ((x :: q) ++ [sp]) = valid_rel ex (S f) s (x :: q)).
    { intros f. cbn [valid_rel]. rewrite (rfind_pre_app_sep sp (x :: q) (ll_sep _ (gd_lin s Hg))). reflexivity. }
    change (length ((x :: q) ++ [sp])) with (S (length (q ++ [sp]))). rewrite Ha. apply valid_rel_fuel; [|lia].
    cbn [length]. rewrite app_length. lia. }
  rewrite Ev. reflexivity.
Qed.
Lemma resolve_trailing ex q c : q <> [] -> resolve_ ex s (q ++ [sp]) c = resolve_ ex s q c.
Proof. intros Hq. unfold resolve_. rewrite (resolve_path_trailing ex q Hq). reflexivity. Qed.

Lemma resolve_strip_n ex c n : forall p, resolve_ ex s (strip_seps (f_cfg s) n p) c = resolve_ ex s p c.
Proof.
  induction n as [|n IH]; intros p; [reflexivity|]. cbn [strip_seps].
  destruct (ends_with_path_separator (f_cfg s) p) eqn:E; [|reflexivity].
  destruct (ends_sep_inv p E) as (q & -> & Hq). rewrite removelast_last, IH. symmetry. apply resolve_trailing, Hq.
Qed.

(** the result of resolving never depends on the separator at the end *)
Lemma resolve_strip ex p c : resolve_ ex s (path_without_trailing_separators (f_cfg s) p) c = resolve_ ex s p c.
Proof. apply resolve_strip_n. Qed.
End Strip.

(** ** Which exceptions lookups raise *)
Definition lookup_exn (e : exn) : Prop := (exists en, e = OSErr en) \/ e = AttrErr.

Section Total.
Variable s : fs.
Hypothesis Hg : good s.
Notation sp := (sepc s).
Let Hex : forall names, Forall (ordinary sp) names -> exists_top s (abs_path sp names) <> Err RecErr :=
  fun names H => exists_top_norec s Hg names H.

Lemma res_exn_cases e : lookup_exn e \/ ~ lookup_exn e.
Proof. destruct e; first [left; left; eexists; reflexivity|left; right; reflexivity|right; intros [[en E]|E]; discriminate]. Qed.

Definition ex_ok (ex : str -> res bool) : Prop :=
  forall names e, Forall (ordinary sp) names -> ex (abs_path sp names) = Err e -> lookup_exn e.

Lemma valid_rel_exn ex : ex_ok ex -> forall fuel p e, length p <= fuel -> valid_rel ex fuel s p = Err e -> lookup_exn e.
Proof.
  intros Hx fuel. induction fuel as [|fuel IH]; intros p e Hlen; cbn [valid_rel]; destruct (c_win _); try discriminate.
  - destruct p; [discriminate|cbn in Hlen; lia].
  - destruct (rfind_pre _ p) as [pre|] eqn:E; [|discriminate].
    destruct (anp_names s pre Hg) as (names & Hn & En). rewrite En.
    destruct (ex (abs_path sp names)) as [b|e'] eqn:Ex; cbn [rbind].
    + destruct b; [|discriminate]. apply IH. assert (L1 := rfind_pre_shorter _ p pre (ltac:(intros K0; discriminate K0) : [sepc s; dotc; dotc] <> []) E). lia.
    + intros E'. injection E' as <-. apply (Hx names e' Hn Ex).
Qed.
Lemma resolve_path_exn ex p e : ex_ok ex -> resolve_path_ ex s p = Err e -> lookup_exn e.
Proof.
  intros Hx. unfold resolve_path_. destruct (str_eqb p []); [intros E; injection E as <-; left; eexists; reflexivity|].
  destruct (valid_rel ex (length p) s p) as [v|e'] eqn:Ev; cbn [rbind].
  2:{ intros E. injection E as <-. apply (valid_rel_exn ex Hx _ _ _ (le_n _) Ev). }
  destruct v; cbn [negb]; [|intros E; injection E as <-; left; eexists; reflexivity].
  destruct (is_root_path _ _); [discriminate|]. destruct (str_eqb _ _); [discriminate|].
  destruct (resolve_components max_links s _) as [r|e'] eqn:Er; cbn [rbind]; [discriminate|].
  intros E. injection E as <-. destruct (resolve_components_err s _ _ _ Hg Er) as [->| ->]; [left; eexists; reflexivity|right; reflexivity].
Qed.
Lemma resolve_exn_ok ex p c e : ex_ok ex -> resolve_ ex s p c = Err e -> lookup_exn e.
Proof.
  intros Hx E. destruct (resolve_err s Hg ex p c e E) as [K|[->|[->|[->| ->]]]]; try (left; eexists; reflexivity); [|right; reflexivity].
  apply (resolve_path_exn ex p e Hx K).
Qed.
Lemma lresolve_exn_ok ex p e : ex_ok ex -> lresolve_ ex s p = Err e -> lookup_exn e.
Proof.
  intros Hx. unfold lresolve_. assert (Hos : forall en, lookup_exn (OSErr en)) by (intros en; left; eexists; reflexivity).
  destruct (str_eqb p []); [intros E; injection E as <-; apply Hos|]. destruct (str_eqb p [sp]); [discriminate|].
  destruct (splitpath _ _) as [h t]. set (h' := if str_eqb h [] then f_cwd s else h).
  destruct (resolve_ ex s h' true) as [d|e'] eqn:Er; cbn [rbind]; [|intros E; injection E as <-; apply (resolve_exn_ok ex h' true e' Hx Er)].
  destruct (is_dirobj s d) eqn:Ed; cbn [negb]; [|unfold os_err; intros E; injection E as <-; apply Hos].
  destruct (has_bit _ _); cbn [negb]; [|intros E; injection E as <-; apply Hos]. destruct (str_eqb t []); [discriminate|].
  rewrite (get_entry_cs s d t (ll_cs _ (gd_lin s Hg))), Ed. destruct (entry s d t); [discriminate|].
  intros E; injection E as <-; apply Hos.
Qed.
Lemma raise_for_sep_exn ex p o f m e : ex_ok ex -> raise_for_sep_ ex s p o f m = Err e -> lookup_exn e.
Proof.
  intros Hx. unfold raise_for_sep_. rewrite (ll_win _ (gd_lin s Hg)), (ll_mac _ (gd_lin s Hg)). cbn [andb orb].
  assert (Hos : forall en, lookup_exn (OSErr en)) by (intros en; left; eexists; reflexivity).
  destruct (ends_with_path_separator _ _); [|discriminate].
  assert (Hc : forall b en (r : res unit), (if b : bool then os_err en else Ok tt) = Err e -> lookup_exn e).
  { intros [|] en _; [intros E; injection E as <-; apply Hos|discriminate]. }
  destruct (S_ISLNK _).
  - destruct (resolve_ ex s p true) as [l|e'] eqn:Er.
    + apply (Hc _ _ (Ok tt)).
    + pose proof (resolve_exn_ok ex p true e' Hx Er) as K. destruct e'; intros E; injection E as <-; exact K.
  - apply (Hc _ _ (Ok tt)).
Qed.
Lemma is_of_type_exn ex p fl follow e : ex_ok ex -> is_of_type_ ex s p fl follow = Err e -> e = AttrErr.
Proof.
  intros Hx. unfold is_of_type_, resolve_any.
  assert (Hr : forall e', (if follow then resolve_ ex s p true else lresolve_ ex s p) = Err e' -> lookup_exn e').
  { intros e'. destruct follow; [apply resolve_exn_ok, Hx|apply lresolve_exn_ok, Hx]. }
  destruct (if follow then resolve_ ex s p true else lresolve_ ex s p) as [o|e']; cbn [rbind].
  - destruct (raise_for_sep_ ex s p o true (negb follow)) as [u|e'] eqn:Es; cbn [rbind]; [discriminate|].
    destruct (raise_for_sep_exn ex p _ _ _ _ Hx Es) as [[en ->]| ->]; [discriminate|intros E; injection E as <-; reflexivity].
  - destruct (Hr e' eq_refl) as [[en ->]| ->]; [discriminate|intros E; injection E as <-; reflexivity].
Qed.
Lemma exists_body_exn ex p cl e : ex_ok ex -> exists_body ex s p cl = Err e -> e = AttrErr.
Proof.
  intros Hx. unfold exists_body.
  destruct (if cl then is_of_type_ ex s p S_IFLNK false else Ok false) as [[|]|e1] eqn:E1; cbn [rbind]; [discriminate| |].
  2:{ intros E. injection E as <-. destruct cl; [apply (is_of_type_exn ex p _ _ _ Hx E1)|discriminate]. }
  destruct (str_eqb p []); [discriminate|]. destruct (str_eqb p (devnull_name s)); [discriminate|].
  destruct (if ends_with_path_separator (f_cfg s) p then is_of_type_ ex s (path_without_trailing_separators (f_cfg s) p) S_IFREG true else Ok false)
    as [[|]|e2] eqn:E2; cbn [rbind]; [discriminate| |].
  2:{ destruct (ends_with_path_separator (f_cfg s) p); [|discriminate]. rewrite (is_of_type_exn ex _ _ _ _ Hx E2).
      intros E; injection E as <-; reflexivity. }
  destruct (resolve_path_ ex s p) as [rp|e3] eqn:E3; cbn [rbind].
  - destruct (str_eqb rp [sp]); discriminate.
  - destruct (resolve_path_exn ex p e3 Hx E3) as [[en ->]| ->]; [discriminate|intros E; injection E as <-; reflexivity].
Qed.
Lemma exists_top_ok : ex_ok (exists_top s).
Proof.
  intros names. assert (H : forall k names e, length names <= k -> Forall (ordinary sp) names ->
    exists_top s (abs_path sp names) = Err e -> e = AttrErr).
  { intros k; induction k as [k IH] using lt_wf_ind. intros ns e Hk Hn.
    rewrite (exists_top_eq s Hg ns Hn). unfold exists_.
    set (ex' := fun q => match exists_top s q with Err AttrErr => Err AttrErr | Err _ => Ok false | r => r end).
    rewrite (exists_body_agree s Hg (exists_top s) ex' (length ns) ns Hn (le_n _)).
    - apply exists_body_exn. intros a e' _. unfold ex'.
      destruct (exists_top s (abs_path sp a)) as [|[]]; intros E; try discriminate. injection E as <-. right; reflexivity.
    - intros a Ha Hla. unfold ex'.
      destruct (exists_top s (abs_path sp a)) as [b|e'] eqn:E; [reflexivity|].
      rewrite (IH (length a) ltac:(lia) a e' (le_n _) Ha E). reflexivity. }
  intros e Hn E. right. apply (H (length names) names e (le_n _) Hn E).
Qed.
End Total.

Lemma norm_walk_exn s rl check : (forall t e, rl t = Err e -> lookup_exn e) -> good s ->
  forall comps d e, norm_walk rl s check d comps = Err e -> lookup_exn e.
Proof.
  intros Hrl Hg comps. assert (Hos : forall en, lookup_exn (OSErr en)) by (intros en; left; eexists; reflexivity).
  induction comps as [|n comps IH]; intros d e; cbn [norm_walk]; [discriminate|].
  destruct (S_ISLNK (o_mode (ob s d))).
  - destruct (text_contents s d) as [t|e'] eqn:Et; cbn [rbind].
    2:{ intros E; injection E as <-. unfold text_contents in Et. destruct (o_body (ob s d)) as [|[]]; try discriminate; injection Et as <-; right; reflexivity. }
    destruct (rl t) as [x|e'] eqn:Er; cbn [rbind]; [|intros E; injection E as <-; apply (Hrl t e' Er)].
    destruct (S_ISDIR (o_mode (ob s x))); cbn [negb]; [|unfold os_err; intros E; injection E as <-; apply Hos].
    rewrite (get_entry_cs s x n (ll_cs _ (gd_lin s Hg))). destruct (is_dirobj s x); [|intros E; injection E as <-; right; reflexivity].
    destruct (entry s x n) as [o|]; [|intros E; injection E as <-; apply Hos].
    destruct (_ && _ && _); [intros E; injection E as <-; apply Hos|]. apply IH.
  - cbn [rbind]. destruct (S_ISDIR (o_mode (ob s d))); cbn [negb]; [|unfold os_err; intros E; injection E as <-; apply Hos].
    rewrite (get_entry_cs s d n (ll_cs _ (gd_lin s Hg))). destruct (is_dirobj s d); [|intros E; injection E as <-; right; reflexivity].
    destruct (entry s d n) as [o|]; [|intros E; injection E as <-; apply Hos].
    destruct (_ && _ && _); [intros E; injection E as <-; apply Hos|]. apply IH.
Qed.
Lemma get_object_exn s p c e : good s -> get_object s p c = Err e -> lookup_exn e.
Proof.
  intros Hg. unfold get_object, get_norm. destruct (str_eqb _ _); [discriminate|]. destruct (str_eqb _ _); [discriminate|].
  apply norm_walk_exn; [|exact Hg]. intros t e'. apply (resolve_exn_ok s Hg _ _ _ _ (exists_top_ok s Hg)).
Qed.

(** ** Plain absolute paths *)
Lemma rfind_plain sp names : sp <> dotc -> plain sp names -> rfind_pre [sp; dotc; dotc] (abs_path sp names) = None.
Proof.
  intros Hd [Ho Hp]. destruct (rfind_pre [sp; dotc; dotc] (abs_path sp names)) as [pre|] eqn:E; [|reflexivity]. exfalso.
  apply rfind_pre_spec in E. destruct E as [t E].
  destruct names as [|n names].
  { unfold abs_path in E. simpl in E. destruct pre as [|x pre]; simpl in E; [discriminate|]. destruct pre; discriminate. }
  pose proof (split_abs_clean (mkcfg false false true sp None) (n :: names)) as Hs. cbn [c_sep] in Hs.
  specialize (Hs (Forall_clean _ _ Ho) ltac:(discriminate)). rewrite E in Hs.
  change (pre ++ [sp; dotc; dotc] ++ t) with (pre ++ sp :: (dotc :: dotc :: t)) in Hs. rewrite split_on_app_mid in Hs.
  assert (Hw : exists w rest, split_on sp (dotc :: dotc :: t) = (dotc :: dotc :: w) :: rest).
  { cbn [split_on]. assert (K : Ascii.eqb dotc sp = false) by (apply Ascii.eqb_neq; congruence). rewrite !K.
    pose proof (split_on_nonempty sp t) as Hne. destruct (split_on sp t) as [|w rest]; [congruence|]. exists w, rest. reflexivity. }
  destruct Hw as (w & rest & Ew). rewrite Ew in Hs. pose proof (split_on_nonempty sp pre) as Hne.
  destruct (split_on sp pre) as [|u us]; [congruence|]. cbn [app] in Hs. injection Hs as _ Hs.
  rewrite <- Hs in Hp. apply Forall_app in Hp. destruct Hp as [_ Hp]. inversion Hp as [|? ? K _]. discriminate K.
Qed.

Lemma resolve_path_plain s names : good s -> plain (sepc s) names ->
  forall r, resolve_path s (abs_path (sepc s) names) = Ok r <-> exists rr, resolved s names rr /\ r = abs_path (sepc s) rr.
Proof.
  intros Hg Hp r. unfold resolve_path. rewrite (resolve_path_ok s Hg). pose proof (anp_abs_path s names Hg (proj1 Hp)) as Ea. split.
  - intros (_ & _ & names' & rr & Hn & E & Hr & ->). rewrite Ea in E.
    apply (abs_path_inj _ (linux_like_posix _ (gd_lin s Hg))) in E; [|apply Hp|exact Hn]. subst names'. exists rr. auto.
  - intros (rr & Hr & ->). split; [discriminate|]. split.
    + apply rfind_none_valid, rfind_plain; [apply (ll_sep _ (gd_lin s Hg))|exact Hp].
    + exists names, rr. repeat split; try assumption. apply Hp.
Qed.

(** what a plain absolute path denotes *)
Lemma resolve_plain s names check o : good s -> plain (sepc s) names ->
  resolve s (abs_path (sepc s) names) check = Ok o <->
  exists rr, resolved s names rr /\
    ((is_null s rr /\ o = devnull_oid) \/
     (~ is_null s rr /\ at_names s rr = Some o /\ searchable s root_oid rr /\ may_read s check root_oid rr)).
Proof.
  intros Hg Hp. unfold resolve. rewrite (resolve_ok s Hg).
  assert (Hcl := Forall_clean _ _ (proj1 Hp)). split.
  - intros (rr & E & Hc & H). apply (resolve_path_plain s names Hg Hp) in E. destruct E as (rr' & Hr & E).
    apply (abs_path_clean_inj _ (gd_lin s Hg)) in E; [|exact Hc|apply (resolved_clean s Hg names rr' Hcl Hr)]. subst rr'. exists rr. auto.
  - intros (rr & Hr & H). exists rr. split; [apply (resolve_path_plain s names Hg Hp); exists rr; auto|].
    split; [apply (resolved_clean s Hg names rr Hcl Hr)|exact H].
Qed.

Lemma exists_plain s names : good s -> plain (sepc s) names ->
  exists_ s (abs_path (sepc s) names) false = Ok true <->
  (is_null s names \/ exists rr o, resolved s names rr /\ at_names s rr = Some o).
Proof.
  intros Hg Hp. unfold exists_. rewrite (exists_names s Hg _ names (proj1 Hp)).
  assert (Hcl := Forall_clean _ _ (proj1 Hp)). split.
  - intros [E|(rr & o & E & Hc & Ho)].
    + destruct names as [|n names]; [right|left; split; [discriminate|exact E]].
      exists [], root_oid. split; [|reflexivity]. right. split; [intros [K _]; congruence|]. exists 0. split; [lia|].
      apply res_done. intros pre n l rest (K & _). destruct pre; discriminate.
    + right. apply (resolve_path_plain s names Hg Hp) in E. destruct E as (rr' & Hr & E).
      apply (abs_path_clean_inj _ (gd_lin s Hg)) in E; [|exact Hc|apply (resolved_clean s Hg names rr' Hcl Hr)]. subst rr'. exists rr, o. auto.
  - intros [[_ E]|(rr & o & Hr & Ho)]; [left; exact E|right]. exists rr, o.
    split; [apply (resolve_path_plain s names Hg Hp); exists rr; auto|]. split; [apply (resolved_clean s Hg names rr Hcl Hr)|exact Ho].
Qed.

(** too many links *)
Lemma tree_at_last s n : forall pre d l, tree_at s d (pre ++ [n]) = Some l -> exists d', entry s d' n = Some l.
Proof.
  intros pre. induction pre as [|m pre IH]; intros d l; cbn [app tree_at]; destruct (entry s d _) as [o|] eqn:E; try discriminate.
  - intros [= ->]. exists d. exact E.
  - apply IH.
Qed.
Lemma resolve_components_honest s : good s -> honest_links s -> forall b comps e, resolve_components b s comps = Err e -> e = OSErr ELOOP.
Proof.
  intros Hg Hh b. induction b as [|b IH]; intros comps e; cbn [resolve_components];
    pose proof (walk_comps_spec s root_oid [] comps Hg) as Hw; destruct (walk_comps s root_oid [] comps) as [r|r l rest]; try discriminate.
  - intros E; injection E as <-; reflexivity.
  - destruct Hw as (pre & n & _ & -> & Ht & Hl). cbn [app]. destruct (tree_at_last s n pre _ _ Ht) as [d Hd]. clear Ht. destruct (Hh d n l Hd Hl) as (t & Ht). rewrite (follow_link_eq s pre n l t Hg Ht). cbn [rbind]. apply IH.
Qed.
Lemma resolve_path_eloop s names : good s -> honest_links s -> plain (sepc s) names -> ~ is_null s names ->
  (forall k r, k <= 41 -> ~ resolves s k names r) -> resolve_path s (abs_path (sepc s) names) = os_err ELOOP.
Proof.
  intros Hg Hh Hp Hnn Hk. pose proof (resolve_path_plain s names Hg Hp) as Hr.
  assert (Hno : forall r, resolve_path s (abs_path (sepc s) names) <> Ok r).
  { intros r E. apply Hr in E. destruct E as (rr & [[K _]|(_ & k & Hle & Hres)] & _); [contradiction|]. apply (Hk k rr Hle Hres). }
  clear Hr Hk Hnn.
  assert (Hv : valid_rel (exists_top s) (length (abs_path (sepc s) names)) s (abs_path (sepc s) names) = Ok true).
  { apply rfind_none_valid, rfind_plain; [apply (ll_sep _ (gd_lin s Hg))|exact Hp]. }
  revert Hno. unfold resolve_path, resolve_path_. rewrite Hv. change (str_eqb (abs_path (sepc s) names) []) with false. cbn [rbind negb].
  destruct (is_root_path (f_cfg s) (anp s (original_path s (abs_path (sepc s) names)))); [intros Hno; exfalso; eapply Hno; reflexivity|].
  destruct (str_eqb (anp s (original_path s (abs_path (sepc s) names))) (devnull_name s)); [intros Hno; exfalso; eapply Hno; reflexivity|].
  destruct (resolve_components max_links s _) as [rr|e] eqn:E; cbn [rbind]; [intros Hno; exfalso; eapply Hno; reflexivity|].
  intros _. rewrite (resolve_components_honest s Hg Hh _ _ _ E). reflexivity.
Qed.
