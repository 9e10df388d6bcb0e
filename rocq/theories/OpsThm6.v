(** * Consequences of the operation theorems in the vocabulary of FsSpec.v *)
From Verif Require Export OpsThm5 IoFrame.

Lemma resolve_in_tree s q c x : Ginv s -> resolve s q c = Ok x -> x <> devnull_oid -> exists rr, at_names s rr = Some x.
Proof.
  intros H E Hx. apply (resolve_ok s (Ginv_good s H)) in E.
  destruct E as (rr & _ & _ & [(_ & K)|(_ & K & _)]); [contradiction|eauto].
Qed.
Lemma at_names_lt s rr x : Ginv s -> at_names s rr = Some x -> x < f_next s.
Proof. intros H. apply tree_at_lt; [exact H|]. pose proof (gi_next s H). unfold root_oid. lia. Qed.
Lemma one_more_still s s' d n o : Ginv s -> Ginv s' -> ext s s' -> one_more s s' d n o -> still_there s s'.
Proof.
  intros H H' X OM q c x E Hx. split; [apply (ext_resolve s s' (Ginv_good s H) (Ginv_good s' H') X q c x Hx E)|].
  destruct (resolve_in_tree s q c x H E Hx) as (rr & Hr).
  split; [apply (ex_mode s s' X rr x Hr)|]. intros data. apply (ex_file s s' X rr x data Hr).
Qed.
Lemma null_free_intro s : Ginv s -> devnull_name s = abs_path (sepc s) [L "dev"; L "null"] -> ~ In (sepc s) (L "devnull") ->
  at_names s [L "dev"; L "null"] = None -> null_free s.
Proof.
  intros H E Hs K names [Hne Hnull]. destruct (at_names s names) as [o|] eqn:A; [|reflexivity]. exfalso.
  assert (Hn : Forall (ordinary (sepc s)) names).
  { clear Hnull Hne. unfold at_names in A. revert A. generalize root_oid. induction names as [|w l IH]; intros d A; [constructor|].
    cbn [tree_at] in A. destruct (entry s d w) as [x|] eqn:Ex; [|discriminate]. constructor; [|apply (IH x A)].
    apply (gi_ent s H d w x), entry_In, Ex. }
  rewrite E in Hnull. apply (abs_path_clean_inj (f_cfg s) (gi_lin s H)) in Hnull.
  - subst names. congruence.
  - apply Forall_clean, Hn.
  - cbn in Hs. repeat constructor; try discriminate; cbn; intuition.
Qed.
Lemma entry_neq s d n o : Ginv s -> entry s d n = Some o -> d <> o.
Proof.
  intros H E ->. assert (K : tree_at s o [n] = Some o) by (cbn; rewrite E; reflexivity).
  apply (gi_acyc s H) in K. discriminate.
Qed.
Lemma one_less_entry s s' d n o : Ginv s -> one_less s s' d n o ->
  entry s' d n = None /\ forall c m, ~ (c = d /\ m = n) -> entry s' c m = entry s c m.
Proof.
  intros H OL. pose proof (entry_neq s d n o H (ol_was _ _ _ _ _ OL)) as Hne.
  assert (Ed : ents s' d = del_assoc n (ents s d)) by (unfold ents; rewrite (ol_dir _ _ _ _ _ OL); reflexivity).
  split.
  - unfold entry. rewrite Ed. apply assoc_del_same, (gi_nodup s H).
  - intros c m Hcm. unfold entry. destruct (Nat.eq_dec c d) as [->|Hc].
    + rewrite Ed. apply assoc_del_other. intros ->. apply Hcm. auto.
    + destruct (Nat.eq_dec c o) as [->|Hco]; unfold ents; [rewrite (ol_obj _ _ _ _ _ OL)|rewrite (ol_other _ _ _ _ _ OL c Hc Hco)]; reflexivity.
Qed.
Lemma one_less_at s s' d n o : Ginv s -> one_less s s' d n o -> forall q x, at_names s q = Some x ->
  (forall a b, q = a ++ n :: b -> at_names s a <> Some d) -> at_names s' q = Some x.
Proof.
  intros H OL q. induction q as [|m q IH] using rev_ind; intros x E Hav; [exact E|].
  unfold at_names in *. rewrite tree_at_app in *. destruct (tree_at s root_oid q) as [c|] eqn:Ec; [|discriminate].
  rewrite (IH c eq_refl).
  - cbn [tree_at] in *. rewrite (proj2 (one_less_entry s s' d n o H OL) c m); [exact E|].
    intros [-> ->]. apply (Hav q []); [reflexivity|exact Ec].
  - intros a b ->. apply (Hav a (b ++ [m])). rewrite <- app_assoc. reflexivity.
Qed.
Lemma one_more_entry s s' d n o : Ginv s -> one_more s s' d n o -> ents s' o = ents s o ->
  forall x m, ~ (x = d /\ m = n) -> entry s' x m = entry s x m.
Proof.
  intros H OM Ho x m Hxm. unfold entry. destruct (Nat.eq_dec x d) as [->|Hx].
  - assert (E : ents s' d = ents s d ++ [(n, o)]) by (unfold ents at 1; rewrite (om_dir _ _ _ _ _ OM); reflexivity).
    rewrite E, assoc_app. destruct (assoc m (ents s d)) eqn:K; [reflexivity|]. cbn.
    destruct (str_eqb_spec m n) as [->|]; [exfalso; apply Hxm; auto|reflexivity].
  - destruct (Nat.eq_dec x o) as [->|Hxo]; [rewrite Ho; reflexivity|]. unfold ents. rewrite (om_other _ _ _ _ _ OM x Hx Hxo). reflexivity.
Qed.
(** ** makedirs on an existing path *)
Lemma scan_ok s names : forall d, (forall pre n rest x, names = pre ++ n :: rest -> tree_at s d pre = Some x -> o_body (ob s x) <> BFile None) ->
  makedirs_scan s d names = Ok tt.
Proof.
  induction names as [|n names IH]; intros d Hb; [reflexivity|]. cbn [makedirs_scan].
  pose proof (Hb [] n names d eq_refl eq_refl) as K. destruct (o_body (ob s d)) as [es|[x|]] eqn:E; [|reflexivity|contradiction].
  destruct (assoc n es) as [o|] eqn:Ea; [|reflexivity]. apply IH. intros pre m rest x -> Hx. apply (Hb (n :: pre) m rest x eq_refl).
  cbn. unfold entry, ents. rewrite E, Ea. exact Hx.
Qed.
Lemma makedirs_existing s p names mode : Ginv s -> c_sep (f_cfg s) = slash -> p <> [] -> names_of s p names ->
  exists_ s (abs_path (sepc s) names) true = Ok true ->
  (forall pre n rest x, names = pre ++ n :: rest -> at_names s pre = Some x -> o_body (ob s x) <> BFile None) ->
  makedirs p mode false s = (os_err EEXIST, s) /\
  (forall o, resolve s (abs_path (sepc s) names) true = Ok o -> is_dirobj s o = true -> makedirs p mode true s = (Ok tt, s)).
Proof.
  intros H Hs Hp Hn He Hb. pose proof (Ginv_good s H) as Hg. destruct (names_of_anp s p names Hg Hp Hn) as [Ho Ea].
  assert (Hce : forall perm, create_dir (abs_path (sepc s) names) perm s = (os_err EEXIST, s)).
  { intros perm. apply create_dir_eexist; [apply Ginv_win, H|]. rewrite make_string_path_slash by exact Hs.
    rewrite (anp_abs_path s names Hg Ho). exact He. }
  assert (Hsc : makedirs_scan s root_oid (path_components (f_cfg s) (abs_path (sepc s) names)) = Ok tt).
  { rewrite (path_components_abs (f_cfg s) (linux_like_posix _ (gi_lin s H)) names) by exact Ho. apply scan_ok, Hb. }
  assert (Hp0 : str_eqb p [] = false) by (destruct (str_eqb_spec p []); [contradiction|reflexivity]).
  split; [|intros o Hr Hd]; unfold makedirs, bind, gets, lift, catch, ret; rewrite Hp0, Ea, (Ginv_mac s H), (Ginv_win s H), andb_false_r; 
    cbn [fst snd]; rewrite Hsc, Hce; cbn; [reflexivity|]. rewrite Hr, Hd. reflexivity.
Qed.
Lemma at_prefix_dirs s names o : Ginv s -> at_names s names = Some o -> is_dirobj s o = true ->
  forall pre rest, names = pre ++ rest -> exists x, at_names s pre = Some x /\ is_dirobj s x = true.
Proof.
  intros H E Hd pre rest ->. unfold at_names in *. rewrite tree_at_app in E. destruct (tree_at s root_oid pre) as [x|]; [|discriminate].
  exists x. split; [reflexivity|]. destruct rest as [|n rest]; [cbn in E; congruence|]. cbn in E.
  destruct (entry s x n) as [y|] eqn:Ey; [|discriminate]. apply (entry_dirobj s x n y Ey).
Qed.
Lemma chdir_failed s a e s' : chdir a s = (Err e, s') -> s' = s.
Proof.
  unfold chdir, bind, catch, gets, lift, raise_os, raise, modify.
  destruct (resolve_path_arg s a) as [p|e1]; cbn [fst snd].
  - destruct (confirmdir s p); [|intros E; injection E; intros; subst; reflexivity].
    destruct (resolve s p true); [|intros E; injection E; intros; subst; reflexivity].
    destruct (_ && _); intros E; [injection E; intros; subst; reflexivity|discriminate].
  - destruct e1 as [e1| | | | | | | | | |]; try (intros E; injection E; intros; subst; reflexivity).
    destruct e1; try (intros E; injection E; intros; subst; reflexivity).
    destruct (c_mac _); intros E; injection E; intros; subst; reflexivity.
Qed.
