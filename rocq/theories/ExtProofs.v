(** * Lookups are preserved when entries are added (and, read backwards,
    reflected when entries are removed). *)
From Verif Require Export ResProofs2.

Lemma ext_refl a : ext a a.
Proof. constructor; auto. Qed.

Lemma ext_tree a b d names o : ext a b -> tree_at a d names = Some o -> tree_at b d names = Some o.
Proof.
  intros He. revert d; induction names as [|n names IH]; intros d; cbn [tree_at]; [auto|].
  destruct (entry a d n) as [x|] eqn:E; [|discriminate]. rewrite (ex_ent a b He d n x E). apply IH.
Qed.

Lemma ext_at a b names o : ext a b -> at_names a names = Some o -> at_names b names = Some o.
Proof. apply ext_tree. Qed.

Lemma ext_trans a b c : ext a b -> ext b c -> ext a c.
Proof.
  intros H1 H2. constructor.
  - rewrite (ex_cfg _ _ H1). apply (ex_cfg _ _ H2).
  - rewrite (ex_cwd _ _ H1). apply (ex_cwd _ _ H2).
  - rewrite (ex_uid _ _ H1). apply (ex_uid _ _ H2).
  - rewrite (ex_null _ _ H1). apply (ex_null _ _ H2).
  - intros d n o H. apply (ex_ent _ _ H2), (ex_ent _ _ H1), H.
  - intros names o H. rewrite (ex_mode _ _ H2 names o (ext_at _ _ _ _ H1 H)). apply (ex_mode _ _ H1 names o H).
  - intros names o data H Hb. apply (ex_file _ _ H2 names o data (ext_at _ _ _ _ H1 H)). apply (ex_file _ _ H1 names o data H Hb).
Qed.

Lemma tree_at_prefix s d a b o : tree_at s d (a ++ b) = Some o -> exists x, tree_at s d a = Some x.
Proof. rewrite tree_at_app. destruct (tree_at s d a) as [x|]; [exists x; reflexivity|discriminate]. Qed.

Section Ext.
Variables a b : fs.
Hypothesis Hga : good a.
Hypothesis Hgb : good b.
Hypothesis He : ext a b.
Notation sp := (sepc a).

Lemma ext_sep : sepc b = sp. Proof. rewrite (ex_cfg a b He). reflexivity. Qed.

Lemma ext_null names : is_null a names <-> is_null b names.
Proof. unfold is_null. rewrite ext_sep, (ex_null a b He). tauto. Qed.

Lemma ext_link names o : at_names a names = Some o -> is_link b o = is_link a o.
Proof. intros H. unfold is_link. rewrite (ex_mode a b He names o H). reflexivity. Qed.

Lemma ext_meets names pre n l rest : meets_link a names pre n l rest -> meets_link b names pre n l rest.
Proof.
  intros (E & A & B). repeat split; [exact E|apply (ext_at a b _ _ He A)|]. rewrite (ext_link _ _ A). exact B.
Qed.

Lemma ext_resolves k names r o : resolves a k names r -> at_names a r = Some o -> resolves b k names r.
Proof.
  intros H Ho. induction H as [names Hn|k names pre n l rest t r Hm Hb Hr IH].
  - apply res_done. intros pre n l rest (E & A & B). subst names.
    assert (Hx : exists x, at_names a (pre ++ [n]) = Some x).
    { apply (tree_at_prefix a root_oid (pre ++ [n]) rest o). rewrite <- app_assoc. exact Ho. }
    destruct Hx as [x Hx]. pose proof (ext_at a b _ _ He Hx) as Hx'. rewrite A in Hx'. injection Hx' as <-.
    apply (Hn pre n l rest). repeat split; [exact Hx|]. rewrite <- (ext_link _ _ Hx). exact B.
  - eapply res_link; [apply ext_meets, Hm| |].
    + destruct Hm as (_ & A & _). apply (ex_file a b He _ _ _ A Hb).
    + rewrite <- (ex_cfg a b He). apply IH, Ho.
Qed.

Lemma ext_resolved names r o : resolved a names r -> at_names a r = Some o -> resolved b names r.
Proof.
  intros [[H ->]|(H & k & Hk & Hr)] Ho.
  - left. split; [apply ext_null, H|reflexivity].
  - right. split; [rewrite <- ext_null; exact H|]. exists k; split; [exact Hk|]. apply (ext_resolves k names r o Hr Ho).
Qed.

Lemma ext_anp p : anp b p = anp a p.
Proof. unfold anp. rewrite (ex_cfg a b He), (ex_cwd a b He). reflexivity. Qed.

Lemma ext_valid exa exb fuel p :
  (forall names, Forall (ordinary sp) names -> exa (abs_path sp names) = Ok true -> exb (abs_path sp names) = Ok true) ->
  valid_rel exa fuel a p = Ok true -> valid_rel exb fuel b p = Ok true.
Proof.
  intros Hex. revert p; induction fuel as [|fuel IH]; intros p; cbn [valid_rel];
    rewrite <- (ex_cfg a b He); destruct (c_win (f_cfg a)); auto;
    destruct (rfind_pre _ p) as [pre|]; auto.
  rewrite ext_anp. destruct (anp_names a pre Hga) as (ns & Hn & ->).
    destruct (exa (abs_path sp ns)) as [[|]|e] eqn:E; cbn [rbind]; try discriminate.
    rewrite (Hex ns Hn E). cbn [rbind]. apply IH.
Qed.

Lemma ext_resolve_path_ exa exb p r o :
  (forall names, Forall (ordinary sp) names -> exa (abs_path sp names) = Ok true -> exb (abs_path sp names) = Ok true) ->
  resolve_path_ exa a p = Ok (abs_path sp r) -> Forall (clean sp) r -> at_names a r = Some o ->
  resolve_path_ exb b p = Ok (abs_path sp r).
Proof.
  intros Hex H Hcl Ho. apply (resolve_path_ok a Hga) in H. destruct H as (Hp & Hv & names & rr & Hn & En & Hr & E).
  apply (resolve_path_ok b Hgb). split; [exact Hp|]. split; [apply (ext_valid exa); assumption|].
  pose proof (resolved_clean a Hga names rr (Forall_clean _ _ Hn) Hr) as Hrc.
  apply (abs_path_clean_inj _ (gd_lin a Hga)) in E; [subst rr|assumption|assumption].
  exists names, r. rewrite ext_sep. split; [exact Hn|]. split; [rewrite ext_anp; exact En|].
  split; [apply (ext_resolved names r o Hr Ho)|reflexivity].
Qed.

Lemma ext_exists_body exa exb names :
  (forall names, Forall (ordinary sp) names -> exa (abs_path sp names) = Ok true -> exb (abs_path sp names) = Ok true) ->
  Forall (ordinary sp) names ->
  exists_body exa a (abs_path sp names) false = Ok true -> exists_body exb b (abs_path sp names) false = Ok true.
Proof.
  intros Hex Hn H. pose proof ext_sep as Es. rewrite <- Es. apply (exists_names b Hgb); rewrite Es; [exact Hn|].
  apply (exists_ok a Hga) in H. destruct H as [H|(rr & o & H & Hcl & Ho)].
  - left. rewrite <- (ex_null a b He). exact H.
  - right. exists rr, o. split; [apply (ext_resolve_path_ exa exb _ rr o Hex H Hcl Ho)|]. split; [exact Hcl|apply (ext_at a b _ _ He Ho)].
Qed.

Lemma ext_exists_top names : Forall (ordinary sp) names ->
  exists_top a (abs_path sp names) = Ok true -> exists_top b (abs_path sp names) = Ok true.
Proof.
  assert (H : forall k names, length names <= k -> Forall (ordinary sp) names ->
    exists_top a (abs_path sp names) = Ok true -> exists_top b (abs_path sp names) = Ok true).
  { intros k; induction k as [k IH] using lt_wf_ind. intros ns Hk Hn.
    assert (Hnb : Forall (ordinary (sepc b)) ns) by (rewrite ext_sep; exact Hn).
    pose proof (exists_top_eq b Hgb ns Hnb) as Eb. rewrite ext_sep in Eb. rewrite Eb.
    rewrite (exists_top_eq a Hga ns Hn). unfold exists_.
    (* restrict both to shorter paths *)
    set (ea := fun q => if Nat.ltb (length (path_components (f_cfg a) q)) (length ns) then exists_top a q else Ok false).
    set (eb := fun q => if Nat.ltb (length (path_components (f_cfg a) q)) (length ns) then exists_top b q else Ok false).
    rewrite (exists_body_agree a Hga (exists_top a) ea (length ns) ns Hn (le_n _)).
    2:{ intros x Hx Hlx. unfold ea. rewrite (path_components_clean _ (gd_lin a Hga) x (Forall_clean _ _ Hx)).
        apply Nat.ltb_lt in Hlx. rewrite Hlx. reflexivity. }
    pose proof (exists_body_agree b Hgb (exists_top b) eb (length ns) ns Hnb (le_n _)) as Hag.
    rewrite ext_sep in Hag. rewrite Hag.
    2:{ intros x Hx Hlx. unfold eb. rewrite (path_components_clean _ (gd_lin a Hga) x (Forall_clean _ _ Hx)).
        apply Nat.ltb_lt in Hlx. rewrite Hlx. reflexivity. }
    apply ext_exists_body; [|exact Hn].
    intros x Hx. unfold ea, eb. rewrite (path_components_clean _ (gd_lin a Hga) x (Forall_clean _ _ Hx)).
    destruct (Nat.ltb_spec (length x) (length ns)) as [Hlt|]; [|discriminate].
    apply (IH (length x)); [lia|lia|exact Hx]. }
  apply (H (length names)). lia.
Qed.

Theorem ext_resolve_path p r o :
  resolve_path a p = Ok (abs_path sp r) -> Forall (clean sp) r -> at_names a r = Some o ->
  resolve_path b p = Ok (abs_path sp r).
Proof. apply ext_resolve_path_, ext_exists_top. Qed.

Lemma ext_searchable names o : at_names a names = Some o -> searchable a root_oid names -> searchable b root_oid names.
Proof.
  intros Ho H pre n rest x -> Hx.
  destruct (tree_at_prefix a root_oid pre (n :: rest) o Ho) as [y Hy].
  pose proof (ext_tree a b _ _ _ He Hy) as Hy'. rewrite Hx in Hy'. injection Hy' as <-.
  unfold is_dirm. rewrite (ex_mode a b He pre x Hy). apply (H pre n rest x eq_refl Hy).
Qed.

Lemma ext_may_read check names o : at_names a names = Some o -> may_read a check root_oid names -> may_read b check root_oid names.
Proof.
  intros Ho [H|[H|H]]; [left|right; left|right; right].
  - unfold is_root in *. rewrite <- (ex_uid a b He). exact H.
  - exact H.
  - intros pre rest x -> Hne Hx. destruct (tree_at_prefix a root_oid pre rest o Ho) as [y Hy].
    pose proof (ext_tree a b _ _ _ He Hy) as Hy'. rewrite Hx in Hy'. injection Hy' as <-.
    rewrite (ex_mode a b He pre x Hy). apply (H pre rest x eq_refl Hne Hy).
Qed.

(** An object found (other than the null device) is found again. *)
Theorem ext_resolve p check o : o <> devnull_oid ->
  resolve a p check = Ok o -> resolve b p check = Ok o.
Proof.
  intros Hd H. apply (resolve_ok a Hga) in H. destruct H as (rr & H & Hcl & [[_ E]|(Hnn & Ho & Hs & Hm)]); [contradiction|].
  apply (resolve_ok b Hgb). exists rr. rewrite ext_sep. split; [apply (ext_resolve_path p rr o H Hcl Ho)|].
  split; [exact Hcl|]. right. split; [rewrite <- ext_null; exact Hnn|]. split; [apply (ext_at a b _ _ He Ho)|].
  split; [apply (ext_searchable rr o Ho Hs)|apply (ext_may_read check rr o Ho Hm)].
Qed.
End Ext.
