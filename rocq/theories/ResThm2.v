(** * One more component: resolving a path and resolving its parent. *)
From Verif Require Export TreeThm.

(** ** ["/.."] in a path with one more component *)
Lemma rfind_nosep sp n : ~ In sp n -> rfind_pre [sp; dotc; dotc] n = None.
Proof.
  induction n as [|x n IH]; intros H; [reflexivity|]. cbn [rfind_pre]. rewrite IH by (intros K; apply H; right; exact K).
  assert (E : starts_with [sp; dotc; dotc] (x :: n) = false); [|rewrite E; reflexivity].
  cbn [starts_with]. destruct (Ascii.eqb_spec sp x) as [->|]; [|reflexivity]. exfalso. apply H. left. reflexivity.
Qed.
Lemma rfind_snoc_up sp p n : ~ In sp n -> starts_with (L "..") n = true -> rfind_pre [sp; dotc; dotc] (p ++ sp :: n) = Some p.
Proof.
  intros Hn Hs. induction p as [|x p IH].
  - cbn [app rfind_pre]. rewrite (rfind_nosep sp n Hn).
    assert (E : starts_with [sp; dotc; dotc] (sp :: n) = true); [|rewrite E; reflexivity].
    cbn [starts_with]. rewrite Ascii.eqb_refl. exact Hs.
  - cbn [app rfind_pre]. rewrite IH. reflexivity.
Qed.
Lemma rfind_snoc sp p n : sp <> dotc -> ~ In sp n -> starts_with (L "..") n = false ->
  rfind_pre [sp; dotc; dotc] (p ++ sp :: n) = rfind_pre [sp; dotc; dotc] p.
Proof.
  intros Hd Hn Hs. induction p as [|x p IH].
  - cbn [app rfind_pre]. rewrite (rfind_nosep sp n Hn).
    assert (E : starts_with [sp; dotc; dotc] (sp :: n) = false); [|rewrite E; reflexivity].
    cbn [starts_with]. rewrite Ascii.eqb_refl. exact Hs.
  - cbn [app rfind_pre]. rewrite IH. destruct (rfind_pre _ p); [reflexivity|].
    assert (E : starts_with [sp; dotc; dotc] (x :: p ++ sp :: n) = starts_with [sp; dotc; dotc] (x :: p)).
    { assert (K : Ascii.eqb dotc sp = false) by (apply Ascii.eqb_neq; congruence).
      cbn [starts_with]. destruct (Ascii.eqb sp x); [|reflexivity].
      destruct p as [|y p]; cbn [starts_with app]; [rewrite K; reflexivity|]. destruct (Ascii.eqb dotc y); [|reflexivity].
      destruct p as [|z p]; cbn [starts_with app]; [rewrite K|]; reflexivity. }
    rewrite E. reflexivity.
Qed.
Lemma join_snoc sp pre (n : str) : pre <> [] -> join_with [sp] (pre ++ [n]) = join_with [sp] pre ++ sp :: n.
Proof.
  induction pre as [|x pre IH]; intros H; [congruence|]. destruct pre as [|y pre].
  - reflexivity.
  - change ((x :: y :: pre) ++ [n]) with (x :: (y :: pre) ++ [n]).
    change (join_with [sp] (x :: (y :: pre) ++ [n])) with (x ++ [sp] ++ join_with [sp] ((y :: pre) ++ [n])).
    rewrite IH by discriminate.
    change (join_with [sp] (x :: y :: pre)) with (x ++ [sp] ++ join_with [sp] (y :: pre)).
    rewrite <- !app_assoc. reflexivity.
Qed.
Lemma abs_path_snoc sp pre (n : str) : pre <> [] -> abs_path sp (pre ++ [n]) = abs_path sp pre ++ sp :: n.
Proof. intros H. unfold abs_path. rewrite join_snoc by exact H. reflexivity. Qed.

Section Snoc.
Variable s : fs.
Hypothesis HG : Ginv s.
Notation sp := (sepc s).
Let Hg : good s := Ginv_good s HG.
Let Hlin : linux_like (f_cfg s) := gi_lin s HG.

Lemma valid_root ex fuel : valid_rel ex fuel s (abs_path sp []) = Ok true.
Proof. apply rfind_none_valid. apply (rfind_plain sp []); [apply (ll_sep _ Hlin)|split; constructor]. Qed.
Lemma valid_one ex fuel n : ordinary sp n -> ex (abs_path sp []) = Ok true -> length (abs_path sp [n]) <= fuel ->
  valid_rel ex fuel s (abs_path sp [n]) = Ok true.
Proof.
  intros Ho He Hf. destruct fuel as [|fuel]; [cbn in Hf; lia|]. cbn [valid_rel]. rewrite (ll_win _ Hlin).
  change (abs_path sp [n]) with ([] ++ sp :: n).
  destruct (starts_with (L "..") n) eqn:E.
  - rewrite rfind_snoc_up; [|apply Ho|exact E]. rewrite (anp_nil s Hg), He. cbn [rbind].
    destruct fuel; cbn [valid_rel]; rewrite (ll_win _ Hlin); reflexivity.
  - rewrite rfind_snoc; [reflexivity|apply (ll_sep _ Hlin)|apply Ho|exact E].
Qed.
Lemma valid_snoc ex pre n : Forall (ordinary sp) pre -> ordinary sp n -> pre <> [] ->
  valid_rel ex (length (abs_path sp (pre ++ [n]))) s (abs_path sp (pre ++ [n])) =
  if starts_with (L "..") n
  then let* b := ex (abs_path sp pre) in if b then valid_rel ex (length (abs_path sp pre)) s (abs_path sp pre) else Ok false
  else valid_rel ex (length (abs_path sp pre)) s (abs_path sp pre).
Proof.
  intros Hp Ho Hne. rewrite (abs_path_snoc sp pre n Hne).
  assert (Hlen : length (abs_path sp pre ++ sp :: n) = S (length (abs_path sp pre) + length n)) by (rewrite app_length; cbn; lia).
  destruct (starts_with (L "..") n) eqn:E.
  - rewrite Hlen. cbn [valid_rel]. rewrite (ll_win _ Hlin). rewrite rfind_snoc_up; [|apply Ho|exact E].
    rewrite (anp_abs_path s pre Hg Hp). destruct (ex (abs_path sp pre)) as [[]|]; cbn [rbind]; try reflexivity.
    apply valid_rel_fuel; lia.
  - rewrite (valid_rel_fuel ex s _ (S (length (abs_path sp pre) + length n)) (abs_path sp pre) (le_n _)) by lia.
    rewrite Hlen. cbn [valid_rel]. rewrite (ll_win _ Hlin). rewrite rfind_snoc; [reflexivity|apply (ll_sep _ Hlin)|apply Ho|exact E].
Qed.

(** ** Links on the way to one more component *)
Lemma resolves_snoc k pre rr d n o : resolves s k pre rr -> at_names s rr = Some d -> entry s d n = Some o -> is_link s o = false ->
  resolves s k (pre ++ [n]) (rr ++ [n]).
Proof.
  intros H Hat He Hl. induction H as [names Hno|k names a m l rest t r Hm Hb Hres IH].
  - apply res_done. intros a m l rest (E & K1 & K2).
    destruct rest as [|x rest] using rev_ind.
    + apply app_inj_tail in E. destruct E as [<- <-].
      rewrite (at_names_snoc s names n d Hat), He in K1. congruence.
    + clear IHrest. rewrite app_comm_cons, app_assoc in E. apply app_inj_tail in E. destruct E as [E _].
      apply (Hno a m l rest). split; [exact E|split; assumption].
  - destruct Hm as (E & K1 & K2). eapply (res_link s k (names ++ [n]) a m l (rest ++ [n]) t).
    + split; [rewrite E, <- app_assoc; reflexivity|split; assumption].
    + exact Hb.
    + rewrite app_assoc. apply IH. exact Hat.
Qed.
(** if a path leads to an object, its parent leads to a directory *)
Lemma resolves_prefix k names rr o : resolves s k names rr -> at_names s rr = Some o ->
  forall pre n, names = pre ++ [n] ->
  exists k' r' d, k' <= k /\ resolves s k' pre r' /\ at_names s r' = Some d /\ is_dirobj s d = true /\
    exists x, entry s d n = Some x.
Proof.
  intros H Hat. induction H as [names Hno|k names a m l rest t r Hm Hb Hres IH]; intros pre n E.
  - subst names. destruct (at_names_snoc_inv s pre n o Hat) as (d & Ha & He).
    exists 0, pre, d. split; [lia|]. split; [apply res_done|split; [exact Ha|split; [apply (entry_dirobj s d n o He)|eauto]]].
    apply (linkfree_prefix s pre [n] Hno).
  - destruct Hm as (E0 & K1 & K2). assert (E2 : pre ++ [n] = a ++ m :: rest) by congruence. subst names. clear E.
    destruct rest as [|x rest] using rev_ind.
    + apply app_inj_tail in E2. destruct E2 as [<- <-].
      destruct (at_names_snoc_inv s pre n l K1) as (d & Ha & He).
      exists 0, pre, d. split; [lia|]. split; [apply res_done|split; [exact Ha|split; [apply (entry_dirobj s d n l He)|eauto]]].
      intros b q y u (E3 & K3 & K4).
      assert (is_dirobj s y = true).
      { subst pre. destruct u as [|z u].
        - assert (y = d) by congruence. subst y. apply (entry_dirobj s d n l He).
        - replace (b ++ q :: z :: u) with ((b ++ [q]) ++ z :: u) in Ha by (rewrite <- app_assoc; reflexivity).
          destruct (prefix_dirs s (b ++ [q]) z u d Ha) as (y' & Y1 & Y2). congruence. }
      rewrite (gd_dnl s Hg y H) in K4. discriminate.
    + clear IHrest. rewrite app_comm_cons, app_assoc in E2. apply app_inj_tail in E2. destruct E2 as [-> ->].
      destruct (IH Hat (link_target (f_cfg s) a t ++ rest) x) as (k' & r' & d & Hk & Hr & Ha & Hd & Hx).
      { rewrite <- app_assoc. reflexivity. }
      exists (S k'), r', d. split; [lia|]. split; [|auto].
      eapply res_link; [split; [reflexivity|split; eassumption]|exact Hb|exact Hr].
Qed.

(** ** Consequences for the lookup functions *)
Lemma rp_names names rr : Forall (ordinary sp) names -> Forall (clean sp) rr ->
  resolve_path s (abs_path sp names) = Ok (abs_path sp rr) ->
  valid_rel (exists_top s) (length (abs_path sp names)) s (abs_path sp names) = Ok true /\ resolved s names rr.
Proof.
  intros Ho Hc E. apply (resolve_path_ok s Hg) in E. destruct E as (_ & Hv & nm & r2 & Ho2 & Ea & Hr & Er).
  rewrite (anp_abs_path s names Hg Ho) in Ea.
  apply (abs_path_clean_inj _ Hlin) in Ea; [|apply Forall_clean; assumption|apply Forall_clean; assumption]. subst nm.
  apply (abs_path_clean_inj _ Hlin) in Er; [|assumption|apply (resolved_clean s Hg names r2); [apply Forall_clean|]; assumption].
  subst r2. auto.
Qed.
Lemma names_rp names rr : Forall (ordinary sp) names ->
  valid_rel (exists_top s) (length (abs_path sp names)) s (abs_path sp names) = Ok true -> resolved s names rr ->
  resolve_path s (abs_path sp names) = Ok (abs_path sp rr).
Proof.
  intros Ho Hv Hr. apply (resolve_path_ok s Hg). split; [discriminate|]. split; [exact Hv|].
  exists names, rr. split; [exact Ho|]. split; [apply (anp_abs_path s names Hg Ho)|]. auto.
Qed.
Lemma exists_of_rp names rr o : Forall (ordinary sp) names -> Forall (clean sp) rr ->
  resolve_path s (abs_path sp names) = Ok (abs_path sp rr) -> at_names s rr = Some o ->
  exists_ s (abs_path sp names) false = Ok true.
Proof. intros Ho Hc E Hat. apply (exists_names s Hg _ names Ho). right. exists rr, o. auto. Qed.

Lemma rp_snoc pre rr d n o : Forall (ordinary sp) pre -> Forall (clean sp) rr -> ~ is_null s pre ->
  resolve_path s (abs_path sp pre) = Ok (abs_path sp rr) -> at_names s rr = Some d -> entry s d n = Some o ->
  is_link s o = false -> ~ is_null s (pre ++ [n]) ->
  resolve_path s (abs_path sp (pre ++ [n])) = Ok (abs_path sp (rr ++ [n])).
Proof.
  intros Hp Hc Hnp E Hat He Hl Hnn.
  assert (Hn : ordinary sp n) by (apply (gi_ent s HG d n o), entry_In, He).
  destruct (rp_names pre rr Hp Hc E) as [Hv [[K _]|[_ (k & Hk & Hr)]]]; [contradiction|].
  apply names_rp.
  - apply Forall_app. split; [exact Hp|constructor; [exact Hn|constructor]].
  - destruct (list_eq_dec (list_eq_dec ascii_dec) pre []) as [->|Hne].
    + apply valid_one; [exact Hn| |cbn; lia]. rewrite (exists_top_eq s Hg []) by constructor. apply (exists_root s false HG).
    + rewrite (valid_snoc (exists_top s) pre n Hp Hn Hne).
      rewrite (exists_top_eq s Hg pre Hp), (exists_of_rp pre rr d Hp Hc E Hat). cbn [rbind]. rewrite Hv.
      destruct (starts_with _ n); reflexivity.
  - right. split; [exact Hnn|]. exists k. split; [exact Hk|]. apply (resolves_snoc k pre rr d n o Hr Hat He Hl).
Qed.

(** the parent of a path that leads to an object *)
Lemma rp_parent pre n rr o : Forall (ordinary sp) (pre ++ [n]) -> Forall (clean sp) rr ->
  ~ is_null s (pre ++ [n]) -> ~ is_null s pre ->
  resolve_path s (abs_path sp (pre ++ [n])) = Ok (abs_path sp rr) -> at_names s rr = Some o ->
  exists r' d x, resolve_path s (abs_path sp pre) = Ok (abs_path sp r') /\ Forall (clean sp) r' /\   at_names s r' = Some d /\ is_dirobj s d = true /\ entry s d n = Some x.
Proof.
  intros Hord Hc Hnn Hnp E Hat. destruct (ordinary_last sp pre n Hord) as [Hp Hn].
  destruct (rp_names (pre ++ [n]) rr Hord Hc E) as [Hv [[K _]|[_ (k & Hk & Hr)]]]; [contradiction|].
  destruct (resolves_prefix k (pre ++ [n]) rr o Hr Hat pre n eq_refl) as (k' & r' & d & Hk' & Hr' & Ha & Hd & x & Hx).
  exists r', d, x. assert (Hc' : Forall (clean sp) r') by (apply (resolves_clean s k' pre r' Hg (Forall_clean _ _ Hp) Hr')).
  split; [|auto]. apply names_rp; [exact Hp| |right; split; [exact Hnp|exists k'; split; [lia|exact Hr']]].
  destruct (list_eq_dec (list_eq_dec ascii_dec) pre []) as [->|Hne]; [apply valid_root|].
  rewrite (valid_snoc (exists_top s) pre n Hp Hn Hne) in Hv. destruct (starts_with _ n); [|exact Hv].
  destruct (exists_top s (abs_path sp pre)) as [[]|]; cbn [rbind] in Hv; [exact Hv|discriminate|discriminate].
Qed.
End Snoc.

(** resolving one more component *)
Lemma resolve_snoc s pre n d o : Ginv s -> Forall (ordinary (sepc s)) pre -> ~ is_null s pre ->
  resolve s (abs_path (sepc s) pre) false = Ok d -> d <> devnull_oid -> is_dirm s d = true -> entry s d n = Some o -> is_link s o = false ->
  ~ is_null s (pre ++ [n]) -> (forall rr, Forall (clean (sepc s)) rr -> resolve_path s (abs_path (sepc s) pre) = Ok (abs_path (sepc s) rr) -> ~ is_null s (rr ++ [n])) ->
  resolve s (abs_path (sepc s) (pre ++ [n])) false = Ok o.
Proof.
  intros HG Hp Hnp Hr Hdn Hdm He Hl Hnn Hnr. pose proof (Ginv_good s HG) as Hg.
  unfold resolve in Hr. apply (resolve_ok s Hg) in Hr. destruct Hr as (rr & E & Hc & [[_ ->]|(Hnrr & Hat & Hse & Hmr)]); [congruence|].
  fold (resolve_path s (abs_path (sepc s) pre)) in E.
  assert (E2 := rp_snoc s HG pre rr d n o Hp Hc Hnp E Hat He Hl Hnn).
  apply (resolve_ok s Hg). exists (rr ++ [n]). split; [exact E2|].
  assert (Hn : ordinary (sepc s) n) by (apply (gi_ent s HG d n o), entry_In, He).
  split; [apply Forall_app; split; [exact Hc|constructor; [apply ordinary_clean, Hn|constructor]]|].
  right. split; [apply Hnr; [exact Hc|exact E]|]. split; [rewrite (at_names_snoc s rr n d Hat); exact He|]. split; [|right; left; reflexivity].
  intros a m rest x E3 K. destruct rest as [|y rest] using rev_ind.
  - apply app_inj_tail in E3. destruct E3 as [<- <-]. unfold at_names in Hat. congruence.
  - clear IHrest. rewrite app_comm_cons, app_assoc in E3. apply app_inj_tail in E3. destruct E3 as [-> _].
    apply (Hse a m rest x eq_refl K).
Qed.
