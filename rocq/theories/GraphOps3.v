(** * Creating and renaming keep the graph invariant. *)
From Verif Require Export GraphOps2.

Lemma wp_alloc nm mode b s (Q : res oid -> fs -> Prop) :
  Q (Ok (f_next s)) (snd (alloc nm mode b s)) -> wp (alloc nm mode b) s Q.
Proof. exact (fun H => H). Qed.

Lemma lor_ifdir m : has_bit (N.lor S_IFDIR m) S_IFDIR = true.
Proof.
  unfold has_bit. apply negb_true_iff, N.eqb_neq. intros E.
  assert (E2 : N.testbit (N.land (N.lor S_IFDIR m) S_IFDIR) 14 = true).
  { rewrite N.land_spec, N.lor_spec. reflexivity. }
  rewrite E in E2. discriminate.
Qed.

(** the invariant after [o_mode] of some directories is set *)
Lemma gsame_set_mode s o m : o <> root_oid -> has_bit m S_IFDIR = true -> gsame s (mod_ob s o (fun x => wo_mode x m)).
Proof.
  intros Hr Hm. apply gsame_mod; [|congruence]. constructor; cbn; auto; destruct (o_body (ob s o)); auto.
Qed.
Lemma wp_set_modes m new : forall s, has_bit m S_IFDIR = true -> ~ In root_oid new ->
  wp (set_modes m new) s (fun r s' => r = Ok tt /\ gsame s s').
Proof.
  induction new as [|o new IH]; intros s Hm Hr; cbn [set_modes].
  - wstep. split; [reflexivity|apply gsame_refl].
  - unfold mod_obj. wstep. eapply wp_conseq; [apply IH; [exact Hm|intros K; apply Hr; right; exact K]|].
    intros r s' [-> G]. split; [reflexivity|]. eapply gsame_trans; [|exact G].
    apply gsame_set_mode; [intros ->; apply Hr; left; reflexivity|exact Hm].
Qed.

Lemma added_next s s' d o : added s s' d o -> f_next s' = f_next s.
Proof. intros (s1 & HL & ->). cbn. apply (linked_next s s1 d o _ HL). Qed.
Lemma added_cfg s s' d o : added s s' d o -> f_cfg s' = f_cfg s.
Proof. intros (s1 & HL & ->). cbn. apply (linked_cfg s s1 d o _ HL). Qed.
Lemma added_dirobj s s' d o x : is_dirobj s d = true -> added s s' d o -> is_dirobj s' x = is_dirobj s x.
Proof. intros Hd (s1 & HL & ->). apply (linked_dirobj s s1 d o _ Hd HL). Qed.

Lemma wp_create_dirs comps : forall cur new s, Ginv s -> Forall (ordinary (sepc s)) comps -> cur < f_next s ->
  wp (create_dirs cur new comps) s (fun r s' => Ginv s' /\ f_next s <= f_next s' /\
    forall c' new', r = Ok (c', new') -> exists extra, new' = new ++ extra /\ Forall (fun x => f_next s <= x) extra).
Proof.
  induction comps as [|comp comps IH]; intros cur new s H Hc Hlt; cbn [create_dirs].
  - wstep. split; [exact H|]. split; [lia|]. intros c' new' E. injection E as <- <-. exists []. rewrite app_nil_r. auto.
  - inversion Hc as [|? ? Hc1 Hc2]; subst. wstep. rewrite (directory_content_cs s cur comp (Ginv_cs s H)).
    destruct (entry s cur comp) as [o|] eqn:E.
    + wstep. apply wp_bind. assert (Ho := entry_lt s cur comp o H E).
      assert (Hrest : forall d, d < f_next s -> wp (bad <- gets (fun s => negb (N.eqb (N.land (o_mode (ob s d)) S_IFDIR) S_IFDIR)) ;;
          (if bad : bool then raise_os ENOTDIR else create_dirs d new comps)) s
        (fun r s' => Ginv s' /\ f_next s <= f_next s' /\
          forall c' new', r = Ok (c', new') -> exists extra, new' = new ++ extra /\ Forall (fun x => f_next s <= x) extra)).
      { intros d Hd. wstep. destruct (negb _).
        - wstep. split; [exact H|]. split; [lia|]. discriminate.
        - apply IH; assumption. }
      destruct (S_ISLNK (o_mode (ob s o))).
      * wstep. destruct (text_contents s o) as [t|e]; cbn [rbind]; [|split; [exact H|split; [lia|discriminate]]].
        destruct (resolve s t true) as [d|e] eqn:Er; [|split; [exact H|split; [lia|discriminate]]].
        apply Hrest, (resolve_lt s t true d H Er).
      * wstep. apply Hrest, Ho.
    + unfold new_dir. apply wp_bind, wp_alloc. cbv beta iota.
      set (s1 := snd (alloc comp (N.lor S_IFDIR PERM_DEF) (BDir []) s)).
      assert (H1 : Ginv s1) by (apply Ginv_alloc; [exact H|left; reflexivity|intros _; apply lor_ifdir]).
      assert (A1 : addable s1 (f_next s)) by (apply addable_alloc; [exact H|exact Hc1|left; reflexivity|intros _; apply lor_ifdir]).
      apply wp_bind. eapply wp_conseq; [apply (wp_add_addable s1 cur (f_next s) H1 A1); lia|].
      intros r s2 [H2 Hcase]. destruct Hcase as [(Hr & -> & _)|(Hd & _ & Ha & Hr)].
      * destruct r as [[]|e]; [congruence|]. split; [exact H2|]. split; [change (f_next s1) with (S (f_next s)); lia|discriminate].
      * assert (En : f_next s2 = S (f_next s)) by (rewrite (added_next _ _ _ _ Ha); reflexivity).
        destruct Hr as [->| ->]; cbv beta iota.
        -- eapply wp_conseq; [apply (IH (f_next s) (new ++ [f_next s]) s2 H2)|].
           ++ rewrite (added_cfg _ _ _ _ Ha). exact Hc2.
           ++ lia.
           ++ intros r s3 (H3 & Hn3 & Hx). split; [exact H3|]. split; [lia|]. intros c' new' E3.
              destruct (Hx c' new' E3) as (extra & -> & Hex). exists (f_next s :: extra).
              split; [rewrite <- app_assoc; reflexivity|]. constructor; [lia|].
              eapply Forall_impl; [|exact Hex]. intros a Ha3. cbv beta in Ha3. lia.
        -- split; [exact H2|]. split; [lia|discriminate].
Qed.

Lemma create_dir_inv n s p perm : Ginv s ->
  wp (create_dir_n (S n) p perm) s (fun r s' => Ginv s' /\ f_next s <= f_next s').
Proof.
  intros H. pose proof (Ginv_good s H) as Hg. cbn [create_dir_n]. unfold create_dir_body.
  wstep. destruct (anp_names s (make_string_path (f_cfg s) p) Hg) as (names & Hn & En). rewrite En.
  apply wp_bind. unfold auto_mount. wstep. rewrite (Ginv_win s H). wstep. cbv beta iota.
  wstep. destruct (exists_ s (abs_path (sepc s) names) true) as [[|]|e]; [wstep|..]; try (split; [exact H|lia]).
  wstep. rewrite (path_components_clean _ (gi_lin s H) _ (Forall_clean _ _ Hn)).
  apply wp_bind. eapply wp_conseq; [apply (wp_create_dirs names root_oid [] s H Hn)|].
  { pose proof (gi_next s H). unfold root_oid. lia. }
  intros [[c' new']|e] s1 (H1 & Hn1 & Hx); cbv beta iota; [|split; assumption].
  cbn [fst snd]. destruct (Hx c' new' eq_refl) as (extra & -> & Hex).
  apply wp_bind. eapply wp_conseq; [apply wp_set_modes; [apply lor_ifdir|]|].
  - cbn [app]. intros K. rewrite Forall_forall in Hex. specialize (Hex _ K). pose proof (gi_next s H). unfold root_oid in Hex. lia.
  - intros r s2 [-> G]. cbv beta iota. wstep. split; [apply (gsame_Ginv s1 s2 G H1)|]. rewrite (gs_next _ _ G). exact Hn1.
Qed.

Lemma create_dir_pres p perm : preserves Ginv (create_dir p perm).
Proof. intros s H. apply (create_dir_inv 2 s p perm H). Qed.

(** ** Rules for [preserves] *)
Lemma pres_ret {A} P (a : A) : preserves P (ret a).
Proof. intros s H; exact H. Qed.
Lemma pres_raise {A} P e : preserves P (@raise A e).
Proof. intros s H; exact H. Qed.
Lemma pres_raise_os {A} P e : preserves P (@raise_os A e).
Proof. intros s H; exact H. Qed.
Lemma pres_gets {A} P (f : fs -> A) : preserves P (gets f).
Proof. intros s H; exact H. Qed.
Lemma pres_lift {A} P (f : fs -> res A) : preserves P (lift f).
Proof. intros s H; exact H. Qed.
Lemma pres_bind {A B} P (m : M A) (k : A -> M B) : preserves P m -> (forall a, preserves P (k a)) -> preserves P (bind m k).
Proof.
  intros Hm Hk s H. specialize (Hm s H). unfold bind. destruct (m s) as [[a|e] s1]; cbn [snd] in *; [apply Hk, Hm|exact Hm].
Qed.
Lemma pres_catch {A} P (m : M A) h : preserves P m -> (forall e, preserves P (h e)) -> preserves P (catch m h).
Proof.
  intros Hm Hk s H. specialize (Hm s H). unfold catch. destruct (m s) as [[a|e] s1]; cbn [snd] in *; [exact Hm|apply Hk, Hm].
Qed.
Lemma pres_keeps {A} (R : fs -> fs -> Prop) (P : fs -> Prop) (m : M A) : (forall s s', R s s' -> P s -> P s') -> keeps R m -> preserves P m.
Proof. intros HR Hk s H. apply (HR s _ (Hk s) H). Qed.
Lemma pres_modify (P : fs -> Prop) f : (forall s, P s -> P (f s)) -> preserves P (modify f).
Proof. intros H s Hs. apply H, Hs. Qed.
Lemma pres_when P b m : preserves P m -> preserves P (when b m).
Proof. intros H. destruct b; [exact H|apply pres_ret]. Qed.
Lemma pres_wp {A} (P : fs -> Prop) (m : M A) Q : (forall s, P s -> wp m s Q) -> (forall r s', Q r s' -> P s') -> preserves P m.
Proof. intros H HQ s Hs. apply (HQ (fst (m s))). apply H, Hs. Qed.

Ltac pres1 :=
  lazymatch goal with
  | |- preserves _ (ret _) => apply pres_ret
  | |- preserves _ (raise _) => apply pres_raise
  | |- preserves _ (raise_os _) => apply pres_raise_os
  | |- preserves _ (gets _) => apply pres_gets
  | |- preserves _ (lift _) => apply pres_lift
  | |- preserves _ (bind _ _) => apply pres_bind; [|let x := fresh "x" in intros x; cbv beta]
  | |- preserves _ (catch _ _) => apply pres_catch; [|let e := fresh "e" in intros e; cbv beta]
  | |- preserves _ (when _ _) => apply pres_when
  | |- preserves _ (if ?b then _ else _) => destruct b
  | |- preserves _ (match ?x with _ => _ end) => destruct x
  | |- preserves _ (let '(_, _) := ?x in _) => destruct x
  end.
Ltac pres := repeat (pres1; cbv zeta).

Lemma remove_object_pres p : preserves Ginv (remove_object p).
Proof. intros s H. apply (remove_object_inv s p H). Qed.

(** pure computations *)
Lemma pure_ret {A} (a : A) : pure (ret a). Proof. intros s; reflexivity. Qed.
Lemma pure_raise {A} e : pure (@raise A e). Proof. intros s; reflexivity. Qed.
Lemma pure_raise_os {A} e : pure (@raise_os A e). Proof. intros s; reflexivity. Qed.
Lemma pure_gets {A} (f : fs -> A) : pure (gets f). Proof. intros s; reflexivity. Qed.
Lemma pure_lift {A} (f : fs -> res A) : pure (lift f). Proof. intros s; reflexivity. Qed.
Lemma pure_bind {A B} (m : M A) (k : A -> M B) : pure m -> (forall a, pure (k a)) -> pure (bind m k).
Proof.
  intros Hm Hk s. specialize (Hm s). unfold bind. destruct (m s) as [[a|e] s1]; cbn in Hm; subst s1; [apply Hk|reflexivity].
Qed.
Lemma pure_catch {A} (m : M A) h : pure m -> (forall e, pure (h e)) -> pure (catch m h).
Proof.
  intros Hm Hk s. specialize (Hm s). unfold catch. destruct (m s) as [[a|e] s1]; cbn in Hm; subst s1; [reflexivity|apply Hk].
Qed.
Lemma pure_when b m : pure m -> pure (when b m).
Proof. intros H. destruct b; [exact H|apply pure_ret]. Qed.
Ltac pure1 :=
  lazymatch goal with
  | |- pure (ret _) => apply pure_ret
  | |- pure (raise _) => apply pure_raise
  | |- pure (raise_os _) => apply pure_raise_os
  | |- pure (gets _) => apply pure_gets
  | |- pure (lift _) => apply pure_lift
  | |- pure (bind _ _) => apply pure_bind; [|let x := fresh "x" in intros x; cbv beta]
  | |- pure (catch _ _) => apply pure_catch; [|let e := fresh "e" in intros e; cbv beta]
  | |- pure (when _ _) => apply pure_when
  | |- pure (if ?b then _ else _) => destruct b
  | |- pure (match ?x with _ => _ end) => destruct x
  end.
Ltac pures := repeat (pure1; cbv zeta).
Lemma wp_pure {A} (m : M A) s (Q : res A -> fs -> Prop) : pure m -> (forall r, r = fst (m s) -> Q r s) -> wp m s Q.
Proof. intros Hm HQ. unfold wp. rewrite (Hm s). apply HQ. reflexivity. Qed.

Lemma handle_broken_link_pure p : pure (handle_broken_link p).
Proof. unfold handle_broken_link. pures. Qed.
Lemma posix_dir_link_errors_pure a b c : pure (posix_dir_link_errors a b c).
Proof. unfold posix_dir_link_errors. pures. Qed.
Lemma rename_error_pure f a b c : pure (rename_error_for_dir_or_link f a b c).
Proof. unfold rename_error_for_dir_or_link. pures. Qed.
Lemma rename_same_object_pure a b : pure (rename_same_object a b).
Proof. unfold rename_same_object. pures. Qed.

(** ** Removal *)
Lemma remove_pres p : preserves Ginv (remove p).
Proof.
  unfold remove. pres; try apply remove_object_pres.
  intros s H. rewrite (handle_broken_link_pure _ s). exact H.
Qed.
Lemma rmdir_pres p b : preserves Ginv (rmdir p b).
Proof. unfold rmdir. pres; apply remove_object_pres. Qed.
Lemma removedirs_loop_pres fuel : forall a b, preserves Ginv (removedirs_loop fuel a b).
Proof. induction fuel as [|fuel IH]; intros a b; cbn [removedirs_loop]; pres; try apply rmdir_pres; apply IH. Qed.
Lemma removedirs_pres p : preserves Ginv (removedirs p).
Proof. unfold removedirs. pres; first [apply rmdir_pres|apply removedirs_loop_pres]. Qed.

(** ** Updates of file contents *)
Lemma wp_set_size o n s : wp (set_size o n) s (fun r s' => gsame s s').
Proof.
  unfold set_size. wstep. destruct (o_body (ob s o)) as [es|data] eqn:Eb; [wstep; apply gsame_refl|].
  destruct (n <? 0)%Z; [wstep; apply gsame_refl|]. wstep. wstep.
  apply wp_bind. eapply wp_conseq; [apply wp_change_disk_usage|]. intros r s1 [Hm [->|[-> ->]]]; [|apply gsame_refl].
  unfold mod_obj. wstep. eapply gsame_trans; [apply only_mounts_gsame, Hm|].
  assert (Eb1 : o_body (ob s1 o) = BFile data) by (rewrite (only_mounts_ob _ _ _ Hm); exact Eb).
  apply gsame_mod.
  - constructor; rewrite ?Eb1; destruct data as [[|c d]|]; cbn; auto; rewrite Eb1; exact I.
  - intros _ K. destruct data as [[|c d]|]; exact K.
Qed.
Lemma set_size_keeps o n : keeps gsame (set_size o n).
Proof. intros s. apply wp_set_size. Qed.

Lemma wp_set_initial o c s : is_dirobj s o = false -> wp (set_initial_contents o c) s (fun r s' => gsame s s').
Proof.
  intros Hd. unfold set_initial_contents. destruct (Nat.eqb o devnull_oid); [wstep; apply gsame_refl|].
  wstep. wstep. wstep. apply wp_bind. eapply wp_conseq; [apply wp_change_disk_usage|].
  intros r s1 [Hm [->|[-> ->]]]; [|apply gsame_refl]. apply only_mounts_gsame in Hm.
  wstep. apply wp_bind.
  assert (Hf : forall s2, gsame s s2 -> wp (mod_obj o (fun x => wo_epoch (wo_size (wo_body x (BFile (Some c))) (Z.of_nat (length c))) (S (o_epoch x))) ;;;
     ret (body_neqb (o_body (ob s o)) c)) s2 (fun r s' => gsame s s')).
  { intros s2 G. unfold mod_obj. wstep. wstep. eapply gsame_trans; [exact G|]. apply gsame_mod.
    - assert (K : is_dirobj s2 o = false) by (rewrite (gs_dir _ _ G); exact Hd). unfold is_dirobj in K.
      constructor; cbn; auto; destruct (o_body (ob s2 o)); try discriminate; exact I.
    - intros _ K; exact K. }
  destruct (truthy_contents s1 o); cbn [when].
  - eapply wp_conseq; [apply wp_set_size|]. intros [[]|e] s2 G; [apply Hf|]; eapply gsame_trans; eassumption.
  - wstep. apply Hf, Hm.
Qed.

Lemma wp_set_large o n s : is_dirobj s o = false -> wp (set_large_file_size o n) s (fun r s' => gsame s s').
Proof.
  intros Hd. unfold set_large_file_size. destruct (n <? 0)%Z; [wstep; apply gsame_refl|]. wstep. apply wp_bind.
  assert (Hf : forall s1, gsame s s1 -> wp (dev <- gets (fun s => o_dev (ob s o)) ;;
     change_disk_usage n dev ;;; mod_obj o (fun x => wo_body (wo_size x n) (BFile None))) s1 (fun r s' => gsame s s')).
  { intros s1 G. wstep. apply wp_bind. eapply wp_conseq; [apply wp_change_disk_usage|].
    intros r s2 [Hm [->|[-> ->]]]; [|exact G]. apply only_mounts_gsame in Hm.
    unfold mod_obj. wstep. assert (G2 := gsame_trans _ _ _ G Hm). eapply gsame_trans; [exact G2|]. apply gsame_mod.
    - assert (K : is_dirobj s2 o = false) by (rewrite (gs_dir _ _ G2); exact Hd). unfold is_dirobj in K.
      constructor; cbn; auto; destruct (o_body (ob s2 o)); try discriminate; exact I.
    - intros _ K; exact K. }
  destruct (negb _); cbn [when].
  - eapply wp_conseq; [apply wp_set_size|]. intros [[]|e] s1 G; [apply Hf, G|exact G].
  - wstep. apply Hf, gsame_refl.
Qed.

Lemma wp_fill_file o c sz s : is_dirobj s o = false -> wp (fill_file o c sz) s (fun r s' => gsame s s').
Proof.
  intros Hd. unfold fill_file. destruct sz as [n|]; [apply wp_set_large, Hd|].
  destruct c as [c|]; apply wp_bind; (eapply wp_conseq; [apply wp_set_initial, Hd|]); intros [b|e] s1 G; try exact G; wstep; exact G.
Qed.

(** ** The configuration never changes *)
Definition cfg_is (c : cfg) (s : fs) : Prop := f_cfg s = c.
Ltac cfgp := pres; try (unfold mod_obj); try (apply pres_modify; intros ? K; exact K).
Lemma alloc_cfg c nm m b : preserves (cfg_is c) (alloc nm m b).
Proof. intros s K. exact K. Qed.
Lemma change_disk_usage_cfg c z d : preserves (cfg_is c) (change_disk_usage z d).
Proof.
  intros s K. destruct (wp_change_disk_usage z d s) as [E _]. rewrite E. exact K.
Qed.
Lemma add_entry_cfg c d o : preserves (cfg_is c) (add_entry d o).
Proof. unfold add_entry, link_obj. cfgp. apply change_disk_usage_cfg. Qed.
Lemma create_dirs_cfg c comps : forall cur new, preserves (cfg_is c) (create_dirs cur new comps).
Proof.
  induction comps as [|x l IH]; intros cur new; cbn [create_dirs]; cfgp; try apply IH.
  all: first [apply add_entry_cfg|apply alloc_cfg].
Qed.
Lemma set_modes_cfg c m l : preserves (cfg_is c) (set_modes m l).
Proof. induction l as [|o l IH]; cbn [set_modes]; cfgp. exact IH. Qed.
Lemma create_dir_cfg c n : forall p perm, preserves (cfg_is c) (create_dir_n n p perm).
Proof.
  induction n as [|n IH]; intros p perm; cbn [create_dir_n]; [apply pres_raise|].
  unfold create_dir_body, auto_mount, mount_point_for_path_, auto_mount_force, add_mount_point_.
  cfgp; try apply IH; try apply create_dirs_cfg; apply set_modes_cfg.
Qed.
Lemma wp_cfg {A} (m : M A) s : (forall c, preserves (cfg_is c) m) -> wp m s (fun _ s' => f_cfg s' = f_cfg s).
Proof. intros H. apply (H (f_cfg s) s). reflexivity. Qed.

(** ** Creating files *)
Lemma create_file_internally_inv s p mode c sz md um : Ginv s ->
  wp (create_file_internally p mode c sz md um) s (fun r s' => Ginv s').
Proof.
  intros H. pose proof (Ginv_good s H) as Hg. unfold create_file_internally. wstep.
  destruct (anp_names s (make_string_path (f_cfg s) p) Hg) as (names & Hn & En). rewrite En.
  wstep. destruct (exists_ s (abs_path (sepc s) names) true) as [[|]|e] eqn:Ee; [wstep; exact H| |exact H].
  destruct (names_cases names) as [->|(pre & n & ->)]; [rewrite (exists_root s true H) in Ee; discriminate|].
  wstep. rewrite (splitpath_abs_path _ (linux_like_posix _ (gi_lin s H)) _ _ Hn). cbn [fst snd].
  destruct (ordinary_last _ _ _ Hn) as [Hpre Hno].
  wstep. change (str_eqb (abs_path (sepc s) pre) []) with false. cbv iota.
  apply wp_bind. unfold auto_mount_drive, auto_mount. wstep. rewrite (Ginv_win s H). wstep. cbv beta iota.
  wstep. destruct (exists_ s (abs_path (sepc s) pre) false) as [pe|e]; [|exact H]. apply wp_bind.
  assert (Hrest : forall pd s1, Ginv s1 -> f_cfg s1 = f_cfg s -> wp (mode' <- gets (fun s => if um then N.ldiff mode (f_umask s) else mode) ;;
    o <- new_file n mode' ;; add_object pd o ;;;
    catch (fill_file o c sz) (fun e => match e with OSErr _ => remove_object (abs_path (sepc s) (pre ++ [n])) ;;; raise e | _ => raise e end) ;;;
    ret o) s1 (fun r s' => Ginv s')).
  { intros pd s1 H1 Ec. wstep. unfold new_file. apply wp_bind, wp_alloc. cbv beta iota.
    match goal with |- context [alloc n ?mm (BFile None) s1] => set (s2 := snd (alloc n mm (BFile None) s1)); set (m2 := mm) in * end.
    assert (H2 : Ginv s2) by (apply Ginv_alloc; [exact H1|right; eexists; reflexivity|discriminate]).
    assert (A2 : addable s2 (f_next s1)).
    { apply addable_alloc; [exact H1|rewrite Ec; exact Hno|right; eexists; reflexivity|discriminate]. }
    assert (D2 : is_dirobj s2 (f_next s1) = false).
    { unfold is_dirobj, ob, s2. cbn. unfold upd. rewrite Nat.eqb_refl. reflexivity. }
    apply wp_bind. eapply wp_conseq; [apply (wp_add_object s2 pd (f_next s1) H2 A2)|].
    intros r s3 [H3 Hc]. destruct Hc as [(-> & e & ->)|(d & _ & Hd & Hdo & _ & Ha & Hr)]; [exact H2|].
    destruct Hr as [->| ->]; [|exact H3]. cbv beta iota.
    assert (D3 : is_dirobj s3 (f_next s1) = false) by (rewrite (added_dirobj s2 s3 d _ _ Hd Ha); exact D2).
    apply wp_bind, wp_catch. eapply wp_conseq; [apply (wp_fill_file _ c sz s3 D3)|].
    intros [[]|e] s4 G; cbv beta iota; (assert (H4 := gsame_Ginv s3 s4 G H3)).
    - wstep. exact H4.
    - destruct e; try (wstep; exact H4). apply wp_bind.
      eapply wp_conseq; [apply (remove_object_inv s4 _ H4)|]. intros [[]|er] s5 [H5 _]; cbv beta iota; [wstep|]; exact H5. }
  destruct pe; cbn [negb].
  - wstep. apply Hrest; [exact H|reflexivity].
  - destruct md; cbn [negb]; [|wstep; exact H]. apply wp_bind.
    eapply wp_conseq; [apply wp_and; [apply (create_dir_inv 2 s _ PERM_DEF H)|apply wp_cfg; intros c0; apply create_dir_cfg]|].
    intros [x|e] s1 [[H1 _] Ec]; cbv beta iota; [wstep; apply Hrest; [exact H1|exact Ec]|exact H1].
Qed.
