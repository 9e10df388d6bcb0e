(** * Path resolution: proofs (C09-C11 and the base of everything else). *)
From Verif Require Export FsSpec PathProofs PathProofs2.

Lemma linux_like_posix c : linux_like c -> posix_like c.
Proof. intros H; constructor; [apply (ll_win _ H)|apply (ll_alt _ H)|apply (ll_sep _ H)]. Qed.
Lemma linux_like_abs c : linux_like c -> posix_abs c.
Proof. intros H; constructor; [apply linux_like_posix, H|left; apply (ll_cs _ H)]. Qed.
Lemma posix_cfg_linux : linux_like posix_cfg.
Proof. constructor; try reflexivity. intros H; discriminate H. Qed.

Lemma ordinary_clean sp w : ordinary sp w -> clean sp w.
Proof. intros (H1 & _ & _ & H2). split; assumption. Qed.
Lemma Forall_clean sp l : Forall (ordinary sp) l -> Forall (clean sp) l.
Proof. apply Forall_impl. intros a; apply ordinary_clean. Qed.

(** ** clean names and paths *)
Section Clean.
Variable c : cfg.
Hypothesis Hc : linux_like c.
Notation sp := (c_sep c).

Lemma split_abs_clean names : Forall (clean sp) names -> names <> [] ->
  split_on sp (abs_path sp names) = [] :: names.
Proof.
  intros H Hne. unfold abs_path. change (sp :: join_with [sp] names) with ([] ++ sp :: join_with [sp] names).
  rewrite split_on_app_sep by (simpl; tauto). f_equal. apply split_join; [assumption|].
  intros w Hw. rewrite Forall_forall in H. apply H, Hw.
Qed.

Lemma path_components_clean names : Forall (clean sp) names ->
  path_components c (abs_path sp names) = names.
Proof.
  intros H. unfold path_components, sep.
  destruct names as [|n names].
  - unfold abs_path. simpl. rewrite Ascii.eqb_refl. reflexivity.
  - inversion H as [|? ? [Hn1 Hn2] Hr]; subst.
    replace (str_eqb (abs_path sp (n :: names)) []) with false by reflexivity.
    replace (str_eqb (abs_path sp (n :: names)) [sp]) with false.
    2:{ symmetry. apply str_eqb_neq. unfold abs_path. destruct n as [|x n]; [congruence|].
        destruct names; simpl; discriminate. }
    cbn [orb]. rewrite (splitdrive_posix c (linux_like_posix _ Hc)).
    rewrite split_abs_clean by (try assumption; discriminate).
    destruct n; [congruence|reflexivity].
Qed.

Lemma components_to_path_clean names : Forall (clean sp) names ->
  components_to_path c names = abs_path sp names.
Proof.
  intros H. unfold components_to_path, sep. rewrite (starts_with_root_abs c (linux_like_posix _ Hc)) by (apply linux_like_abs, Hc).
  destruct names as [|n names]; [reflexivity|].
  inversion H as [|? ? [Hn1 Hn2] Hr]; subst.
  rewrite (is_abs_join c n names Hn1 Hn2). reflexivity.
Qed.

Lemma abs_path_clean_inj a b : Forall (clean sp) a -> Forall (clean sp) b ->
  abs_path sp a = abs_path sp b -> a = b.
Proof.
  intros Ha Hb E. rewrite <- (path_components_clean a Ha), E. apply path_components_clean, Hb.
Qed.

Lemma link_target_clean pre t : Forall (clean sp) (link_target c pre t).
Proof.
  pose proof (linux_like_posix _ Hc) as Hp.
  unfold link_target. match goal with |- context [normpath c ?x] => generalize x end. intros q.
  pose proof (normpath_canonical c Hp q) as Hcan. destruct Hcan as [| |names Hne Hn|ups names Hne Hu Hn].
  - unfold path_components, sep. simpl. rewrite Ascii.eqb_refl. constructor.
  - unfold path_components, sep. simpl.
    assert (E : Ascii.eqb "."%char sp = false) by (apply (dot_neq_sp c Hp)).
    rewrite E. cbn [andb]. unfold L; simpl. rewrite (splitdrive_posix c Hp). simpl. rewrite E.
    constructor; [|constructor]. split; [discriminate|]. intros [H|[]]. rewrite H, Ascii.eqb_refl in E. discriminate.
  - change (sp :: join_with [sp] names) with (abs_path sp names).
    rewrite path_components_clean; apply Forall_clean, Hn.
  - pose proof (upnames_clean c Hp ups names Hu Hn) as Hcl.
    unfold path_components, sep.
    destruct (ups ++ names) as [|w l] eqn:El; [congruence|].
    destruct (str_eqb (join_with [sp] (w :: l)) []) eqn:E1.
    { constructor. }
    destruct (str_eqb (join_with [sp] (w :: l)) [sp]) eqn:E2.
    { constructor. }
    cbn [orb]. rewrite (splitdrive_posix c Hp).
    rewrite split_join; [|discriminate|intros v Hv; apply Hcl, Hv].
    assert (Hw : w <> []) by (apply Hcl; left; reflexivity).
    destruct w as [|x w]; [congruence|].
    apply Forall_forall. intros v Hv. apply Hcl in Hv. exact Hv.
Qed.

(** no trailing separator *)
Lemma ends_sep_clean names : Forall (clean sp) names ->
  ends_with_path_separator c (abs_path sp names) = false.
Proof.
  intros H. unfold ends_with_path_separator, sep. rewrite (ll_alt _ Hc).
  destruct names as [|w l _] using rev_ind.
  { unfold abs_path. cbn [join_with]. rewrite str_eqb_refl. reflexivity. }
  apply Forall_app in H. destruct H as [_ H]. inversion H as [|? ? [H1 H2] _]; subst.
  destruct (exists_last H1) as (w0 & y & ->).
  assert (E2 : exists u, abs_path sp (l ++ [w0 ++ [y]]) = u ++ [y]).
  { unfold abs_path. destruct l as [|v l]; [exists (sp :: w0); reflexivity|].
    rewrite join_with_app by discriminate. cbn [join_with].
    exists (sp :: join_with [sp] (v :: l) ++ sp :: w0).
    cbn [app]. f_equal. rewrite <- app_assoc. reflexivity. }
  destruct E2 as [u ->].
  replace (ends_with_char sp (u ++ [y])) with false.
  2:{ symmetry. unfold ends_with_char. rewrite last_char_app. apply Ascii.eqb_neq. intros ->.
      apply H2, in_or_app; right; left; reflexivity. }
  cbn [orb]. apply andb_false_r.
Qed.
End Clean.

(** ** walking names *)
Lemma tree_at_app s d a b :
  tree_at s d (a ++ b) = match tree_at s d a with Some x => tree_at s x b | None => None end.
Proof.
  revert d; induction a as [|n a IH]; intros d; [reflexivity|].
  cbn [app tree_at]. destruct (entry s d n); [apply IH|reflexivity].
Qed.

Lemma at_names_snoc s names n d : at_names s names = Some d -> at_names s (names ++ [n]) = entry s d n.
Proof. intros H. unfold at_names in *. rewrite tree_at_app, H. simpl. destruct (entry s d n); reflexivity. Qed.

Lemma at_names_snoc_inv s names n o : at_names s (names ++ [n]) = Some o ->
  exists d, at_names s names = Some d /\ entry s d n = Some o.
Proof.
  intros H. unfold at_names in *. rewrite tree_at_app in H. destruct (tree_at s root_oid names) as [d|]; [|discriminate].
  exists d; split; [reflexivity|]. simpl in H. destruct (entry s d n); [exact H|discriminate].
Qed.

Lemma entry_dirobj s d n o : entry s d n = Some o -> is_dirobj s d = true.
Proof. unfold entry, ents, is_dirobj. destruct (o_body (ob s d)); [reflexivity|discriminate]. Qed.

Lemma tree_at_dirobj s d n rest o : tree_at s d (n :: rest) = Some o -> is_dirobj s d = true.
Proof. simpl. destruct (entry s d n) eqn:E; [|discriminate]. intros _. apply (entry_dirobj s d n o0 E). Qed.

Lemma directory_content_cs s d n : c_cs (f_cfg s) = true ->
  directory_content s d n = match entry s d n with Some o => Some (n, o) | None => None end.
Proof.
  intros H. unfold directory_content, entry, ents. destruct (o_body (ob s d)); [|reflexivity].
  rewrite H. cbn [negb]. destruct (assoc n entries); reflexivity.
Qed.

Lemma normalized_entryname_cs s d n : c_cs (f_cfg s) = true -> normalized_entryname s d n = n.
Proof. intros H. unfold normalized_entryname. rewrite H. reflexivity. Qed.

Lemma get_entry_cs s d n : c_cs (f_cfg s) = true ->
  get_entry s d n = if is_dirobj s d then match entry s d n with Some o => Ok o | None => Err KeyErr end
                    else Err AttrErr.
Proof.
  intros H. unfold get_entry. rewrite (normalized_entryname_cs s d n H). unfold is_dirobj, entry, ents.
  destruct (o_body (ob s d)); reflexivity.
Qed.

Lemma get_entry_ok s d n o : c_cs (f_cfg s) = true -> get_entry s d n = Ok o <-> entry s d n = Some o.
Proof.
  intros H. rewrite (get_entry_cs s d n H). destruct (is_dirobj s d) eqn:Ed.
  - destruct (entry s d n); split; congruence.
  - split; [discriminate|]. intros E. apply entry_dirobj in E. congruence.
Qed.

Lemma original_path_cs s p : c_cs (f_cfg s) = true -> original_path s p = p.
Proof. intros H. unfold original_path. rewrite H. reflexivity. Qed.

(** ** links *)
Lemma meets_link_unique s names pre n l rest pre' n' l' rest' :
  good s -> meets_link s names pre n l rest -> meets_link s names pre' n' l' rest' ->
  pre = pre' /\ n = n' /\ l = l' /\ rest = rest'.
Proof.
  intros Hg.
  assert (Hlt : forall names pre n l rest pre' n' l' rest',
    meets_link s names pre n l rest -> meets_link s names pre' n' l' rest' -> length pre < length pre' -> False).
  { clear - Hg. intros names pre n l rest pre' n' l' rest' (E1 & A1 & L1) (E2 & A2 & L2) Hlt.
    assert (Hp : exists x, pre' = pre ++ n :: x).
    { rewrite E1 in E2. clear - E2 Hlt. revert pre' E2 Hlt; induction pre as [|a pre IH]; intros [|b pre'] E2 Hlt; simpl in *; try lia.
      - injection E2 as -> _. exists pre'. reflexivity.
      - injection E2 as -> E2. destruct (IH pre' E2) as [x ->]; [lia|]. exists x; reflexivity. }
    destruct Hp as [x ->]. rewrite <- app_assoc in A2. cbn [app] in A2.
    change (pre ++ n :: x ++ [n']) with (pre ++ [n] ++ (x ++ [n'])) in A2. rewrite app_assoc in A2.
    unfold at_names in *. rewrite tree_at_app, A1 in A2.
    assert (Hd : is_dirobj s l = true).
    { destruct (x ++ [n']) as [|y ys] eqn:E; [destruct x; discriminate|]. apply (tree_at_dirobj s l y ys l' A2). }
    apply (gd_dnl s Hg) in Hd. congruence. }
  intros H1 H2.
  assert (Hl : length pre = length pre').
  { destruct (Nat.lt_trichotomy (length pre) (length pre')) as [H|[H|H]]; [|exact H|].
    - exfalso; eapply Hlt; [exact H1|exact H2|exact H].
    - exfalso; eapply Hlt; [exact H2|exact H1|exact H]. }
  destruct H1 as (E1 & A1 & L1), H2 as (E2 & A2 & L2). rewrite E1 in E2.
  assert (Epre : pre = pre').
  { apply (f_equal (firstn (length pre))) in E2. rewrite firstn_app, Nat.sub_diag, firstn_all, app_nil_r in E2.
    rewrite Hl in E2. rewrite firstn_app, Nat.sub_diag, firstn_all, app_nil_r in E2. exact E2. }
  subst pre'. apply app_inv_head in E2. injection E2 as -> ->. rewrite A1 in A2. injection A2 as ->. auto.
Qed.

Lemma walk_comps_spec s d acc comps : good s ->
  match walk_comps s d acc comps with
  | WDone r => r = acc ++ comps /\
      (forall pre n rest l, comps = pre ++ n :: rest -> tree_at s d (pre ++ [n]) = Some l -> is_link s l = false)
  | WLink r l rest => exists pre n, comps = pre ++ n :: rest /\ r = acc ++ pre ++ [n] /\
      tree_at s d (pre ++ [n]) = Some l /\ is_link s l = true
  end.
Proof.
  intros Hg. pose proof (ll_cs _ (gd_lin s Hg)) as Hcs.
  revert d acc; induction comps as [|n comps IH]; intros d acc; cbn [walk_comps].
  - split; [rewrite app_nil_r; reflexivity|]. intros pre n rest l E. destruct pre; discriminate.
  - rewrite (directory_content_cs s d n Hcs). destruct (entry s d n) as [o|] eqn:En.
    + fold (is_link s o). destruct (is_link s o) eqn:El.
      * exists [], n. repeat split; [|assumption]. simpl. rewrite En. reflexivity.
      * specialize (IH o (acc ++ [n])). destruct (walk_comps s o (acc ++ [n]) comps) as [r|r l rest].
        -- destruct IH as [-> H]. split; [rewrite <- app_assoc; reflexivity|].
           intros pre m rest l E A. destruct pre as [|a pre].
           ++ simpl in E, A. injection E as -> ->. rewrite En in A. injection A as <-. exact El.
           ++ simpl in E. injection E as -> ->. simpl in A. rewrite En in A.
              apply (H pre m rest l eq_refl A).
        -- destruct IH as (pre & m & -> & -> & A & B). exists (n :: pre), m. repeat split; [|simpl; rewrite En; exact A|exact B].
           rewrite <- app_assoc. reflexivity.
    + split; [rewrite <- app_assoc; reflexivity|].
      intros pre m rest l E A. destruct pre as [|a pre]; simpl in E, A; injection E as -> ->; rewrite En in A; discriminate.
Qed.

Lemma follow_link_eq s pre n l t : good s -> o_body (ob s l) = BFile (Some t) ->
  follow_link s (pre ++ [n]) l =
  Ok (normpath (f_cfg s) (if is_abs (sepc s) t then t else join_with [sepc s] (pre ++ [t]))).
Proof.
  intros Hg Hb. pose proof (gd_lin s Hg) as Hl. unfold follow_link, text_contents. rewrite Hb. cbn [rbind].
  unfold strip_unc_prefix. rewrite (ll_win _ Hl). cbn [andb].
  rewrite (starts_with_root_abs _ (linux_like_posix _ Hl)) by (apply linux_like_abs, Hl).
  rewrite removelast_last. fold (sepc s). destruct (is_abs (sepc s) t); reflexivity.
Qed.

Lemma resolves_det s k k' names r r' : good s ->
  resolves s k names r -> resolves s k' names r' -> k = k' /\ r = r'.
Proof.
  intros Hg H. revert k' r'; induction H as [names Hn|k names pre n l rest t r Hm Hb Hr IH]; intros k' r' H'.
  - inversion H' as [? Hn'|? ? pre n l rest t ? Hm]; subst; [auto|]. exfalso; apply (Hn pre n l rest Hm).
  - inversion H' as [? Hn'|? ? pre' n' l' rest' t' ? Hm' Hb' Hr']; subst.
    + exfalso; apply (Hn' pre n l rest Hm).
    + destruct (meets_link_unique s names pre n l rest pre' n' l' rest' Hg Hm Hm') as (<- & <- & <- & <-).
      rewrite Hb in Hb'. injection Hb' as <-. destruct (IH k0 r' Hr') as [-> ->]. auto.
Qed.

Lemma resolve_components_ok s b comps r : good s ->
  resolve_components b s comps = Ok r <-> exists k, k <= b /\ resolves s k comps r.
Proof.
  intros Hg. revert comps; induction b as [|b IH]; intros comps; cbn [resolve_components];
    pose proof (walk_comps_spec s root_oid [] comps Hg) as Hw;
    destruct (walk_comps s root_oid [] comps) as [r0|r0 l rest].
  - destruct Hw as [-> Hw]. cbn [app]. split.
    + intros E; injection E as <-. exists 0; split; [lia|]. apply res_done. intros pre n l rest (E & A & B).
      rewrite (Hw pre n rest l E A) in B. discriminate.
    + intros (k & Hk & Hr). inversion Hr as [? Hn|]; subst; [reflexivity|lia].
  - destruct Hw as (pre & n & E & -> & A & B). split; [discriminate|].
    intros (k & Hk & Hr). inversion Hr as [? Hn|]; subst; [|lia]. exfalso; apply (Hn pre n l rest).
    repeat split; assumption.
  - destruct Hw as [-> Hw]. cbn [app]. split.
    + intros E; injection E as <-. exists 0; split; [lia|]. apply res_done. intros pre n l rest (E & A & B).
      rewrite (Hw pre n rest l E A) in B. discriminate.
    + intros (k & Hk & Hr). inversion Hr as [? Hn|? ? pre n l rest t ? Hm]; subst; [reflexivity|].
      destruct Hm as (E & A & B). rewrite (Hw pre n rest l E A) in B. discriminate.
  - destruct Hw as (pre & n & E & -> & A & B). cbn [app].
    assert (Hm : meets_link s comps pre n l rest) by (repeat split; assumption).
    destruct (o_body (ob s l)) as [es|[t|]] eqn:Eb.
    + unfold follow_link, text_contents. rewrite Eb. cbn [rbind]. split; [discriminate|].
      intros (k & Hk & Hr). inversion Hr as [? Hn|? ? pre' n' l' rest' t ? Hm' Hb']; subst; [exfalso; eapply Hn; exact Hm|].
      destruct (meets_link_unique _ _ _ _ _ _ _ _ _ _ Hg Hm Hm') as (_ & _ & <- & _). congruence.
    + rewrite (follow_link_eq s pre n l t Hg Eb). cbn [rbind]. rewrite IH. split.
      * intros (k & Hk & Hr). exists (S k). split; [lia|]. eapply res_link; [exact Hm|exact Eb|exact Hr].
      * intros (k & Hk & Hr). inversion Hr as [? Hn|k' ? pre' n' l' rest' t' ? Hm' Hb' Hr']; subst; [exfalso; eapply Hn; exact Hm|].
        destruct (meets_link_unique _ _ _ _ _ _ _ _ _ _ Hg Hm Hm') as (<- & <- & <- & <-).
        rewrite Eb in Hb'. injection Hb' as <-. exists k'. split; [lia|exact Hr'].
    + unfold follow_link, text_contents. rewrite Eb. cbn [rbind]. split; [discriminate|].
      intros (k & Hk & Hr). inversion Hr as [? Hn|? ? pre' n' l' rest' t ? Hm' Hb']; subst; [exfalso; eapply Hn; exact Hm|].
      destruct (meets_link_unique _ _ _ _ _ _ _ _ _ _ Hg Hm Hm') as (_ & _ & <- & _). congruence.
Qed.

(** the possible errors: ELOOP, or a link object without a text *)
Lemma resolve_components_err s b comps e : good s ->
  resolve_components b s comps = Err e -> e = OSErr ELOOP \/ e = AttrErr.
Proof.
  intros Hg. revert comps; induction b as [|b IH]; intros comps; cbn [resolve_components];
    destruct (walk_comps s root_oid [] comps) as [r0|r0 l rest]; try discriminate.
  - intros E; injection E as <-. left; reflexivity.
  - unfold follow_link, text_contents. destruct (o_body (ob s l)) as [es|[t|]]; cbn [rbind].
    + intros E; injection E as <-; right; reflexivity.
    + apply IH.
    + intros E; injection E as <-; right; reflexivity.
Qed.

Lemma resolves_clean s k names r : good s -> Forall (clean (sepc s)) names -> resolves s k names r ->
  Forall (clean (sepc s)) r.
Proof.
  intros Hg Hn H. induction H as [names _|k names pre n l rest t r Hm Hb Hr IH]; [exact Hn|].
  apply IH. apply Forall_app; split; [apply link_target_clean, (gd_lin s Hg)|].
  destruct Hm as (-> & _ & _). apply Forall_app in Hn. destruct Hn as [_ Hn]. inversion Hn; assumption.
Qed.
