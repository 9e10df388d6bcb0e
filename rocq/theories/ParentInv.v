(** * Parent chains are finite in every reachable state. *)
From Verif Require Export LookupProofs.

(** [panc s x y]: following [parent_dir] from [x] one gets to [y]. *)
Inductive panc (s : fs) : oid -> oid -> Prop :=
| panc_refl x : panc s x x
| panc_up x p y : o_parent (ob s x) = Some p -> panc s p y -> panc s x y.
(** [pfin s x n]: following [parent_dir] from [x] ends after [n] steps. *)
Inductive pfin (s : fs) : oid -> nat -> Prop :=
| pf_0 x : o_parent (ob s x) = None -> pfin s x 0
| pf_S x p n : o_parent (ob s x) = Some p -> pfin s p n -> pfin s x (S n).

Record Pinv (s : fs) : Prop := {
  pi_dir : forall x p, o_parent (ob s x) = Some p -> is_dirobj s p = true;
  pi_fin : forall x, is_dirobj s x = true -> exists n, pfin s x n
}.

Lemma pfin_ext s s' x n : (forall y, o_parent (ob s' y) = o_parent (ob s y)) -> pfin s x n -> pfin s' x n.
Proof. intros E. induction 1 as [x Hx|x p n Hx _ IH]; [apply pf_0|apply (pf_S _ _ p)]; rewrite ?E; assumption. Qed.
Lemma Pinv_ext s s' : (forall y, o_parent (ob s' y) = o_parent (ob s y)) -> (forall y, is_dirobj s' y = is_dirobj s y) ->
  Pinv s -> Pinv s'.
Proof.
  intros Ep Ed [Hd Hf]. constructor.
  - intros x p. rewrite Ep, Ed. apply Hd.
  - intros x. rewrite Ed. intros Hx. destruct (Hf x Hx) as [n Hn]. exists n. apply (pfin_ext s s' x n Ep Hn).
Qed.
Lemma Pinv_gsame s s' : gsame s s' -> Pinv s -> Pinv s'.
Proof. intros G. apply Pinv_ext; [apply (gs_par _ _ G)|apply (gs_dir _ _ G)]. Qed.
Lemma Pinv_shrunk s s' : shrunk s s' -> Pinv s -> Pinv s'.
Proof. intros G. apply Pinv_ext; [|apply (sh_dir _ _ G)]. intros y. apply (shrunk_attr o_parent s s' y G); reflexivity. Qed.

Lemma Pinv_alloc s nm mode b : Ginv s -> Pinv s -> Pinv (snd (alloc nm mode b s)).
Proof.
  intros H [Hd Hf].
  assert (E : forall x, ob (snd (alloc nm mode b s)) x = if Nat.eqb x (f_next s) then fresh_obj s nm mode b else ob s x).
  { intros x. unfold ob. cbn. unfold upd. reflexivity. }
  assert (Ep : forall x p, o_parent (ob (snd (alloc nm mode b s)) x) = Some p -> x <> f_next s /\ o_parent (ob s x) = Some p).
  { intros x p. rewrite E. destruct (Nat.eqb x (f_next s)) eqn:Ex; [discriminate|]. apply Nat.eqb_neq in Ex. auto. }
  assert (Hnd : forall p, is_dirobj s p = true -> p <> f_next s).
  { intros p Hp ->. rewrite (gi_new s H (f_next s)) in Hp by lia. discriminate. }
  assert (Ed : forall x, x <> f_next s -> is_dirobj (snd (alloc nm mode b s)) x = is_dirobj s x).
  { intros x Hx. unfold is_dirobj. rewrite E. apply Nat.eqb_neq in Hx. rewrite Hx. reflexivity. }
  assert (Hfin : forall x n, pfin s x n -> x <> f_next s -> pfin (snd (alloc nm mode b s)) x n).
  { induction 1 as [x Hx|x p n Hx _ IH]; intros Hne; apply Nat.eqb_neq in Hne.
    - apply pf_0. rewrite E, Hne. exact Hx.
    - apply (pf_S _ _ p); [rewrite E, Hne; exact Hx|]. apply IH, Hnd, (Hd x p Hx). }
  constructor.
  - intros x p K. apply Ep in K. destruct K as [_ K]. rewrite Ed; [apply (Hd x p K)|apply Hnd, (Hd x p K)].
  - intros x Hx. destruct (Nat.eq_dec x (f_next s)) as [->|Hne].
    + exists 0. apply pf_0. rewrite E, Nat.eqb_refl. reflexivity.
    + rewrite Ed in Hx by exact Hne. destruct (Hf x Hx) as [n Hn]. exists n. apply Hfin; assumption.
Qed.

(** linking [o] into [d] *)
Lemma Pinv_linked s s' d o nm : d <> o -> is_dirobj s d = true -> linked s s' d o nm ->
  (is_dirobj s o = true -> ~ panc s d o) -> Pinv s -> Pinv s'.
Proof.
  intros Hne Hdd HL Hoff [Hd Hf].
  assert (Ep : forall x, o_parent (ob s' x) = if Nat.eqb x o then Some d else o_parent (ob s x)) by (intros x; eapply linked_parent; eassumption).
  assert (Ed : forall x, is_dirobj s' x = is_dirobj s x) by (intros x; eapply linked_dirobj; eassumption).
  assert (Hdir : forall x p, o_parent (ob s' x) = Some p -> is_dirobj s' p = true).
  { intros x p. rewrite Ep, Ed. destruct (Nat.eqb x o); [|apply Hd]. intros K. injection K as <-. exact Hdd. }
  constructor; [exact Hdir|].
  (* chains avoiding o are as before *)
  assert (Hav : forall x n, pfin s x n -> ~ panc s x o -> pfin s' x n).
  { induction 1 as [x Hx|x p n Hx _ IH]; intros Ha.
    - apply pf_0. rewrite Ep. destruct (Nat.eqb x o) eqn:Ex; [|exact Hx]. apply Nat.eqb_eq in Ex. subst x. exfalso. apply Ha, panc_refl.
    - assert (Ex : Nat.eqb x o = false) by (apply Nat.eqb_neq; intros ->; apply Ha, panc_refl).
      apply (pf_S _ _ p); [rewrite Ep, Ex; exact Hx|]. apply IH. intros K. apply Ha. apply (panc_up _ _ p); assumption. }
  intros x. rewrite Ed. intros Hx.
  destruct (is_dirobj s o) eqn:Ho.
  - destruct (Hf d Hdd) as [m Hm]. assert (Hm' := Hav d m Hm (Hoff eq_refl)).
    assert (Ho' : pfin s' o (S m)) by (apply (pf_S _ _ d); [rewrite Ep, Nat.eqb_refl; reflexivity|exact Hm']).
    destruct (Hf x Hx) as [n Hn]. clear Hx. induction Hn as [x Hx|x p n Hx _ IH].
    + destruct (Nat.eq_dec x o) as [->|Hxo]; [exists (S m); exact Ho'|]. exists 0. apply pf_0. rewrite Ep. apply Nat.eqb_neq in Hxo. rewrite Hxo. exact Hx.
    + destruct (Nat.eq_dec x o) as [->|Hxo]; [exists (S m); exact Ho'|]. destruct IH as [k Hk]. exists (S k).
      apply (pf_S _ _ p); [|exact Hk]. rewrite Ep. apply Nat.eqb_neq in Hxo. rewrite Hxo. exact Hx.
  - destruct (Hf x Hx) as [n Hn]. exists n. apply Hav; [exact Hn|]. intros K.
    assert (Hall : forall a b, panc s a b -> is_dirobj s a = true -> is_dirobj s b = true).
    { induction 1 as [a|a p b Ha _ IH]; [auto|]. intros _. apply IH, (Hd a p Ha). }
    rewrite (Hall x o K Hx) in Ho. discriminate.
Qed.
Lemma Pinv_added s s' d o : d <> o -> is_dirobj s d = true -> added s s' d o ->
  (is_dirobj s o = true -> ~ panc s d o) -> Pinv s -> Pinv s'.
Proof.
  intros Hne Hdd (s1 & HL & Hm) Hoff HP. assert (P1 := Pinv_linked s s1 d o _ Hne Hdd HL Hoff HP).
  apply (Pinv_gsame s1 s' (only_mounts_gsame s1 s' Hm) P1).
Qed.
Lemma wp_add_entry_P s d o : Pinv s -> d <> o -> (is_dirobj s o = true -> ~ panc s d o) ->
  wp (add_entry d o) s (fun _ s' => Pinv s').
Proof.
  intros HP Hne Hoff. eapply wp_conseq; [apply (wp_add_entry s d o Hne)|].
  intros r s' [(_ & -> & _)|(Hd & _ & Ha & _)]; [exact HP|]. apply (Pinv_added s s' d o Hne Hd Ha Hoff HP).
Qed.

(** nothing has a fresh object as its parent *)
Lemma fresh_off_chain s nm mode b d : Ginv s -> Pinv s -> d <> f_next s -> ~ panc (snd (alloc nm mode b s)) d (f_next s).
Proof.
  intros H HP Hne K.
  assert (Hnd : forall x p, o_parent (ob (snd (alloc nm mode b s)) x) = Some p -> p <> f_next s).
  { intros x p Hx ->. revert Hx. unfold ob. cbn. unfold upd. destruct (Nat.eqb x (f_next s)); [discriminate|].
    intros Hx. pose proof (pi_dir s HP x _ Hx) as Hd. rewrite (gi_new s H (f_next s)) in Hd by lia. discriminate. }
  assert (G : forall x y, panc (snd (alloc nm mode b s)) x y -> y = f_next s -> x <> f_next s -> False).
  { induction 1 as [x|x p y Hx _ IH]; intros E Hx1; [congruence|]. apply (IH E (Hnd x p Hx)). }
  apply (G _ _ K eq_refl Hne).
Qed.

(** ** Every call keeps it *)
Definition GP (s : fs) : Prop := Ginv s /\ Pinv s.
Lemma GP_G {A} (m : M A) : preserves Ginv m -> (forall s, Ginv s -> Pinv s -> wp m s (fun _ s' => Pinv s')) -> preserves GP m.
Proof. intros HG HP s [H P]. split; [apply HG, H|apply (HP s H P)]. Qed.
Lemma GP_gsame {A} (m : M A) : keeps gsame m -> preserves GP m.
Proof. intros K s [H P]. split; [apply (gsame_Ginv s _ (K s) H)|apply (Pinv_gsame s _ (K s) P)]. Qed.

Lemma remove_object_GP p : preserves GP (remove_object p).
Proof.
  intros s [H P]. destruct (remove_object_inv s p H) as [H' S']. split; [exact H'|]. apply (Pinv_shrunk s _ S' P).
Qed.

Lemma wp_create_dirs_P comps : forall cur new s, Ginv s -> Pinv s -> Forall (ordinary (sepc s)) comps -> cur < f_next s ->
  wp (create_dirs cur new comps) s (fun _ s' => Pinv s').
Proof.
  induction comps as [|comp comps IH]; intros cur new s H P Hc Hlt; cbn [create_dirs].
  - wstep. exact P.
  - inversion Hc as [|? ? Hc1 Hc2]; subst. wstep. rewrite (directory_content_cs s cur comp (Ginv_cs s H)).
    destruct (entry s cur comp) as [o|] eqn:E.
    + wstep. apply wp_bind. assert (Ho := entry_lt s cur comp o H E).
      assert (Hrest : forall d, d < f_next s -> wp (bad <- gets (fun s => negb (N.eqb (N.land (o_mode (ob s d)) S_IFDIR) S_IFDIR)) ;;
          (if bad : bool then raise_os ENOTDIR else create_dirs d new comps)) s (fun _ s' => Pinv s')).
      { intros d Hd. wstep. destruct (negb _); [wstep; exact P|]. apply IH; assumption. }
      destruct (S_ISLNK (o_mode (ob s o))).
      * wstep. destruct (text_contents s o) as [t|e]; cbn [rbind]; [|exact P].
        destruct (resolve s t true) as [d|e] eqn:Er; [|exact P]. apply Hrest, (resolve_lt s t true d H Er).
      * wstep. apply Hrest, Ho.
    + unfold new_dir. apply wp_bind, wp_alloc. cbv beta iota.
      set (s1 := snd (alloc comp (N.lor S_IFDIR PERM_DEF) (BDir []) s)).
      assert (H1 : Ginv s1) by (apply Ginv_alloc; [exact H|left; reflexivity|intros _; apply lor_ifdir]).
      assert (P1 : Pinv s1) by (apply Pinv_alloc; assumption).
      assert (A1 : addable s1 (f_next s)) by (apply addable_alloc; [exact H|exact Hc1|left; reflexivity|intros _; apply lor_ifdir]).
      apply wp_bind. eapply wp_conseq; [apply wp_and; [apply (wp_add_addable s1 cur (f_next s) H1 A1); lia|apply (wp_add_entry_P s1 cur (f_next s) P1); [lia|]]|].
      { intros _. apply fresh_off_chain; [exact H|exact P|lia]. }
      intros r s2 [[H2 Hcase] P2]. destruct Hcase as [(Hr & -> & _)|(Hd & _ & Ha & Hr)].
      * destruct r as [[]|e]; [congruence|]. exact P2.
      * assert (En : f_next s2 = S (f_next s)) by (rewrite (added_next _ _ _ _ Ha); reflexivity).
        destruct Hr as [->| ->]; cbv beta iota; [|exact P2].
        apply (IH (f_next s) (new ++ [f_next s]) s2 H2 P2); [|lia]. rewrite (added_cfg _ _ _ _ Ha). exact Hc2.
Qed.
Lemma Pinv_set_mode s o m : Pinv s -> Pinv (mod_ob s o (fun x => wo_mode x m)).
Proof.
  apply Pinv_ext; intros y; unfold is_dirobj; rewrite ob_mod; destruct (Nat.eqb y o) eqn:E; try reflexivity; apply Nat.eqb_eq in E; subst y; reflexivity.
Qed.
Lemma set_modes_P m new : forall s, Pinv s -> wp (set_modes m new) s (fun _ s' => Pinv s').
Proof.
  induction new as [|o new IH]; intros s P; cbn [set_modes]; [wstep; exact P|]. unfold mod_obj. wstep. apply IH, Pinv_set_mode, P.
Qed.
Lemma create_dir_P n s p perm : Ginv s -> Pinv s -> wp (create_dir_n (S n) p perm) s (fun _ s' => Pinv s').
Proof.
  intros H P. pose proof (Ginv_good s H) as Hg. cbn [create_dir_n]. unfold create_dir_body.
  wstep. destruct (anp_names s (make_string_path (f_cfg s) p) Hg) as (names & Hn & En). rewrite En.
  apply wp_bind. unfold auto_mount. wstep. rewrite (Ginv_win s H). wstep. cbv beta iota.
  wstep. destruct (exists_ s (abs_path (sepc s) names) true) as [[|]|e]; [wstep; exact P| |exact P].
  wstep. rewrite (path_components_clean _ (gi_lin s H) _ (Forall_clean _ _ Hn)).
  apply wp_bind. eapply wp_conseq; [apply (wp_create_dirs_P names root_oid [] s H P Hn)|].
  { pose proof (gi_next s H). unfold root_oid. lia. }
  intros [[c' new']|e] s1 P1; cbv beta iota; [|exact P1].
  apply wp_bind. eapply wp_conseq; [apply (set_modes_P _ _ s1 P1)|].
  intros [[]|e] s2 P2; cbv beta iota; [wstep|]; exact P2.
Qed.
Lemma create_dir_GP p perm : preserves GP (create_dir p perm).
Proof. apply GP_G; [apply create_dir_pres|]. intros s H P. apply create_dir_P; assumption. Qed.

Lemma wp_add_object_P s p o : Ginv s -> Pinv s -> addable s o -> (forall d, is_dirobj s o = true -> d <> o -> ~ panc s d o) ->
  wp (add_object p o) s (fun _ s' => Pinv s').
Proof.
  intros H P A Hoff. eapply wp_conseq; [apply (wp_add_object s p o H A)|].
  intros r s' [_ [[-> _]|(d & _ & Hd & Hne & _ & Ha & _)]]; [exact P|].
  apply (Pinv_added s s' d o Hne Hd Ha); [|exact P]. intros Ho. apply Hoff; assumption.
Qed.

Lemma create_file_internally_P s p mode c sz md um : Ginv s -> Pinv s ->
  wp (create_file_internally p mode c sz md um) s (fun r s' => Pinv s').
Proof.
  intros H P. pose proof (Ginv_good s H) as Hg. unfold create_file_internally. wstep.
  destruct (anp_names s (make_string_path (f_cfg s) p) Hg) as (names & Hn & En). rewrite En.
  wstep. destruct (exists_ s (abs_path (sepc s) names) true) as [[|]|e] eqn:Ee; [wstep; exact P| |exact P].
  destruct (names_cases names) as [->|(pre & n & ->)]; [rewrite (exists_root s true H) in Ee; discriminate|].
  wstep. rewrite (splitpath_abs_path _ (linux_like_posix _ (gi_lin s H)) _ _ Hn). cbn [fst snd].
  destruct (ordinary_last _ _ _ Hn) as [Hpre Hno].
  wstep. change (str_eqb (abs_path (sepc s) pre) []) with false. cbv iota.
  apply wp_bind. unfold auto_mount_drive, auto_mount. wstep. rewrite (Ginv_win s H). wstep. cbv beta iota.
  wstep. destruct (exists_ s (abs_path (sepc s) pre) false) as [pe|e]; [|exact P]. apply wp_bind.
  assert (Hrest : forall pd s1, Ginv s1 -> Pinv s1 -> f_cfg s1 = f_cfg s -> wp (mode' <- gets (fun s => if um then N.ldiff mode (f_umask s) else mode) ;;
    o <- new_file n mode' ;; add_object pd o ;;;
    catch (fill_file o c sz) (fun e => match e with OSErr _ => remove_object (abs_path (sepc s) (pre ++ [n])) ;;; raise e | _ => raise e end) ;;;
    ret o) s1 (fun r s' => Pinv s')).
  { intros pd s1 H1 P1 Ec. wstep. unfold new_file. apply wp_bind, wp_alloc. cbv beta iota.
    match goal with |- context [alloc n ?mm (BFile None) s1] => set (s2 := snd (alloc n mm (BFile None) s1)); set (m2 := mm) in * end.
    assert (H2 : Ginv s2) by (apply Ginv_alloc; [exact H1|right; eexists; reflexivity|discriminate]).
    assert (P2 : Pinv s2) by (apply Pinv_alloc; assumption).
    assert (A2 : addable s2 (f_next s1)).
    { apply addable_alloc; [exact H1|rewrite Ec; exact Hno|right; eexists; reflexivity|discriminate]. }
    assert (D2 : is_dirobj s2 (f_next s1) = false).
    { unfold is_dirobj, ob, s2. cbn. unfold upd. rewrite Nat.eqb_refl. reflexivity. }
    apply wp_bind. eapply wp_conseq; [apply wp_and; [apply (wp_add_object s2 pd (f_next s1) H2 A2)|apply (wp_add_object_P s2 pd (f_next s1) H2 P2 A2); congruence]|].
    intros r s3 [[H3 Hc] P3]. destruct Hc as [(-> & e & ->)|(d & _ & Hd & Hdo & _ & Ha & Hr)]; [exact P2|].
    destruct Hr as [->| ->]; [|exact P3]. cbv beta iota.
    assert (D3 : is_dirobj s3 (f_next s1) = false) by (rewrite (added_dirobj s2 s3 d _ _ Hd Ha); exact D2).
    apply wp_bind, wp_catch. eapply wp_conseq; [apply (wp_fill_file _ c sz s3 D3)|].
    intros [[]|e] s4 G; cbv beta iota; (assert (H4 := gsame_Ginv s3 s4 G H3); assert (P4 := Pinv_gsame s3 s4 G P3)).
    - wstep. exact P4.
    - destruct e; try (wstep; exact P4). apply wp_bind.
      eapply wp_conseq; [apply (remove_object_inv s4 _ H4)|]. intros [[]|er] s5 [H5 S5]; cbv beta iota; [wstep|]; apply (Pinv_shrunk s4 s5 S5 P4). }
  destruct pe; cbn [negb].
  - wstep. apply Hrest; [exact H|exact P|reflexivity].
  - destruct md; cbn [negb]; [|wstep; exact P]. apply wp_bind.
    eapply wp_conseq; [apply wp_and; [apply wp_and; [apply (create_dir_inv 2 s _ PERM_DEF H)|apply wp_cfg; intros c0; apply create_dir_cfg]|apply (create_dir_P 2 s _ PERM_DEF H P)]|].
    intros [x|e] s1 [[[H1 _] Ec] P1]; cbv beta iota; [wstep; apply Hrest; [exact H1|exact P1|exact Ec]|exact P1].
Qed.
Lemma create_file_internally_GP p mode c sz md um : preserves GP (create_file_internally p mode c sz md um).
Proof. apply GP_G; [apply create_file_internally_pres|]. intros s H P. apply create_file_internally_P; assumption. Qed.
Lemma create_symlink_GP p t md : preserves GP (create_symlink p t md).
Proof. unfold create_symlink. pres; first [apply remove_object_GP|apply create_file_internally_GP]. Qed.

Lemma create_link_GP a b f md : preserves GP (create_link a b f md).
Proof.
  apply GP_G; [apply create_link_pres|]. intros s H P.
  pose proof (Ginv_good s H) as Hg. unfold create_link. wstep. wstep.
  destruct (anp_names s b Hg) as (names & Hn & En). rewrite En. wstep.
  destruct (exists_ s (abs_path (sepc s) names) true) as [[|]|e] eqn:Ee; [wstep; exact P| |exact P].
  destruct (names_cases names) as [->|(pre & n & ->)]; [rewrite (exists_root s true H) in Ee; discriminate|].
  rewrite (splitpath_abs_path _ (linux_like_posix _ (gi_lin s H)) _ _ Hn). cbn [fst snd].
  destruct (ordinary_last _ _ _ Hn) as [Hpre Hno]. wstep.
  change (str_eqb (abs_path (sepc s) pre) []) with false. cbv iota. wstep.
  destruct (exists_ s (abs_path (sepc s) pre) false) as [pe|e]; [|exact P].
  apply wp_bind.
  match goal with |- wp ?m s ?Q => assert (Hm : wp m s (fun _ s1 => Ginv s1 /\ Pinv s1 /\ f_cfg s1 = f_cfg s)) end.
  { destruct pe; cbn [negb]; [wstep; auto|]. destruct md; [|wstep; auto].
    apply wp_bind. eapply wp_conseq; [apply wp_and; [apply wp_and; [apply (create_dir_inv 2 s _ PERM_DEF H)|apply wp_cfg; intros; apply create_dir_cfg]|apply (create_dir_P 2 s _ PERM_DEF H P)]|].
    intros [x|e] s1 [[[H1 _] Ec] P1]; cbv beta iota; [wstep|]; auto. }
  eapply wp_conseq; [exact Hm|]. clear Hm. intros [[]|e] s1 (H1 & P1 & Ec); cbv beta iota; [|exact P1].
  destruct (ends_with_path_separator _ a); [wstep; exact P1|].
  destruct (negb _ && _); [wstep; exact P1|].
  apply wp_bind, wp_catch. wstep. destruct (resolve_follow s1 a f true) as [o|e] eqn:Er.
  2:{ destruct e; try (wstep; exact P1). }
  wstep. destruct (has_bit (o_mode (ob s1 o)) S_IFDIR) eqn:Eb; [wstep; exact P1|].
  destruct (root_not_nodir s1 o H1 Eb) as [Hr Hd].
  unfold mod_obj. wstep.
  assert (G := gsame_rename_file s1 o n Hd Hr). set (s2 := mod_ob s1 o (fun x => wo_name x n)) in *.
  assert (H2 := gsame_Ginv s1 s2 G H1). assert (P2 := Pinv_gsame s1 s2 G P1).
  assert (A : addable s2 o).
  { constructor.
    - rewrite (gs_next _ _ G). apply (resolve_follow_lt s1 a f true o H1 Er).
    - exact Hr.
    - unfold s2. rewrite ob_mod_same. cbn. rewrite Ec. exact Hno.
    - right. unfold s2. rewrite ob_mod_same. cbn. exact Eb.
    - rewrite (gs_ents _ _ G). unfold ents. unfold is_dirobj in Hd. destruct (o_body (ob s1 o)); [discriminate|reflexivity]. }
  apply wp_bind. eapply wp_conseq; [apply (wp_add_object_P s2 _ o H2 P2 A)|].
  { rewrite (gs_dir _ _ G). congruence. }
  intros [[]|e] s3 P3; cbv beta iota; [wstep|]; exact P3.
Qed.

Lemma new_dir_add_P s p n perm : Ginv s -> Pinv s -> ordinary (sepc s) n ->
  wp (o <- new_dir n perm ;; add_object p o) s (fun r s' => Pinv s').
Proof.
  intros H P Hn. unfold new_dir. apply wp_bind, wp_alloc. cbv beta iota. apply wp_add_object_P.
  - apply Ginv_alloc; [exact H|left; reflexivity|intros _; apply lor_ifdir].
  - apply Pinv_alloc; assumption.
  - apply addable_alloc; [exact H|exact Hn|left; reflexivity|intros _; apply lor_ifdir].
  - intros d _ Hne. apply fresh_off_chain; assumption.
Qed.
Lemma new_file_add_P s p n perm : Ginv s -> Pinv s -> ordinary (sepc s) n ->
  wp (o <- new_file n perm ;; add_object p o) s (fun r s' => Pinv s').
Proof.
  intros H P Hn. unfold new_file. apply wp_bind, wp_alloc. cbv beta iota. apply wp_add_object_P.
  - apply Ginv_alloc; [exact H|right; eexists; reflexivity|discriminate].
  - apply Pinv_alloc; assumption.
  - apply addable_alloc; [exact H|exact Hn|right; eexists; reflexivity|discriminate].
  - intros d _ Hne. apply fresh_off_chain; assumption.
Qed.
Lemma makedir_GP p mode : preserves GP (makedir p mode).
Proof.
  apply GP_G; [apply makedir_pres|]. intros s H P.
  pose proof (Ginv_good s H) as Hg. unfold makedir. wstep.
  destruct (str_eqb _ []); [wstep; exact P|]. wstep. rewrite (Ginv_win s H).
  set (dn := path_without_trailing_separators (f_cfg s) p).
  apply wp_bind.
  match goal with |- wp ?m s ?Q => assert (Hm : wp m s (fun _ s1 => s1 = s)) end.
  { destruct (negb _); [|wstep; reflexivity]. wstep. destruct (exists_ s _ false) as [[|]|e]; cbn [negb]; try wstep; reflexivity. }
  eapply wp_conseq; [exact Hm|]. clear Hm. intros [[]|e] s1 ->; cbv beta iota; [|exact P].
  wstep. destruct (anp_names s dn Hg) as (names & Hn & En). rewrite En. wstep.
  destruct (exists_ s (abs_path (sepc s) names) true) as [e|e] eqn:Ee; [|exact P].
  rewrite (Ginv_mac s H), andb_false_r.
  destruct e.
  - apply wp_bind. wstep. cbv beta iota. rewrite andb_false_l. wstep. exact P.
  - wstep. destruct (names_cases names) as [->|(pre & n & ->)]; [rewrite (exists_root s true H) in Ee; discriminate|].
    rewrite (splitpath_abs_path _ (linux_like_posix _ (gi_lin s H)) _ _ Hn). cbn [fst snd].
    destruct (ordinary_last _ _ _ Hn) as [Hpre Hno]. wstep. apply new_dir_add_P; assumption.
Qed.
Lemma makedirs_GP p mode eo : preserves GP (makedirs p mode eo).
Proof. unfold makedirs. pres; first [apply remove_object_GP|apply create_dir_GP]. Qed.
Lemma mknod_GP p mode dev : preserves GP (mknod p mode dev).
Proof.
  apply GP_G; [apply mknod_pres|]. intros s H P.
  unfold mknod. wstep. rewrite (Ginv_win s H). wstep.
  destruct (_ || _); [wstep; exact P|]. destruct (str_eqb (snd _) []) eqn:E1.
  { wstep. destruct (exists_ s _ true) as [[|]|e]; try (wstep; exact P). exact P. }
  destruct (str_eqb (snd _) dot || _) eqn:E2; [wstep; exact P|].
  wstep. destruct (exists_ s p true) as [[|]|e]; try (wstep; exact P); [|exact P].
  wstep. apply new_file_add_P; [exact H|exact P|].
  apply orb_false_iff in E2. destruct E2 as [E2 E3].
  split; [|split; [|split]].
  - intros K. rewrite K in E1. discriminate.
  - intros K. rewrite K in E2. rewrite str_eqb_refl in E2. discriminate.
  - intros K. rewrite K in E3. rewrite str_eqb_refl in E3. discriminate.
  - apply (split_all _ (linux_like_abs _ (gi_lin s H))).
Qed.
Lemma remove_GP p : preserves GP (remove p).
Proof. unfold remove, handle_broken_link. pres; apply remove_object_GP. Qed.
Lemma rmdir_GP p b : preserves GP (rmdir p b).
Proof. unfold rmdir. pres; apply remove_object_GP. Qed.
Lemma removedirs_loop_GP fuel : forall a b, preserves GP (removedirs_loop fuel a b).
Proof. induction fuel as [|n IH]; intros a b; cbn [removedirs_loop]; pres; first [apply rmdir_GP|apply IH]. Qed.
Lemma removedirs_GP p : preserves GP (removedirs p).
Proof. unfold removedirs. pres; first [apply rmdir_GP|apply removedirs_loop_GP]. Qed.

Lemma has_parent_off s x o : forall fuel, has_parent_n fuel s x o = Ok false -> ~ panc s x o.
Proof.
  intros fuel. revert x. induction fuel as [|n IH]; intros x; cbn [has_parent_n]; destruct (Nat.eqb x o) eqn:E; try discriminate;
    apply Nat.eqb_neq in E; destruct (o_parent (ob s x)) as [p|] eqn:Ep; try discriminate.
  - intros _ K. inversion K; subst; congruence.
  - intros Hp K. inversion K as [|? p' ? Hp' K']; subst; [congruence|]. assert (p' = p) by congruence. subst p'. apply (IH p Hp K').
  - intros _ K. inversion K; subst; congruence.
Qed.
Lemma panc_ext s s' x y : (forall z, o_parent (ob s' z) = o_parent (ob s z)) -> panc s' x y -> panc s x y.
Proof. intros E. induction 1 as [|x p y Hx _ IH]; [apply panc_refl|apply (panc_up _ _ p); [rewrite <- E|]; assumption]. Qed.

Lemma rename_move_P s old new oldo : Ginv s -> Pinv s ->
  (forall d, resolve s (fst (splitpath (f_cfg s) old)) true = Ok d -> forall o, entry s d (snd (splitpath (f_cfg s) old)) = Some o -> o = oldo) ->
  wp (rename_move old new oldo) s (fun _ s' => Pinv s').
Proof.
  intros H P Hold. unfold rename_move. wstep.
  wstep. destruct (exists_ s _ false) as [[|]|e]; cbn [negb]; try (wstep; exact P); [|exact P].
  wstep. destruct (resolve s (fst (splitpath (f_cfg s) old)) true) as [odo|e] eqn:Eo; [|exact P].
  wstep. destruct (resolve s (fst (splitpath (f_cfg s) new)) true) as [ndo|e]; [|exact P].
  wstep. destruct (negb _); [wstep; exact P|]. wstep. destruct (negb _); [wstep; exact P|].
  wstep. destruct (has_parent_object s ndo oldo) as [[|]|e] eqn:Ehp; [wstep; exact P| |exact P].
  assert (Hoff : ~ panc s ndo oldo).
  { unfold has_parent_object in Ehp. destruct (is_dirobj s ndo); [|discriminate]. apply (has_parent_off s ndo oldo _ Ehp). }
  wstep. destruct (get_entry s odo _) as [o|e] eqn:Eg; [|exact P].
  apply (get_entry_ok s _ _ _ (Ginv_cs s H)) in Eg. assert (o = oldo) by (apply (Hold odo eq_refl o Eg)). subst o.
  destruct (gi_ent s H _ _ _ (entry_In _ _ _ _ Eg)) as (_ & Hroot & _).
  apply wp_bind. eapply wp_conseq; [apply (wp_remove_entry odo _ false s H)|].
  intros [[]|e] s1 [[H1 HS1 _] HR1]; cbv beta iota; [|apply (Pinv_shrunk s s1 HS1 P)].
  destruct HR1 as (x & Hx & Hd1 & Hoth1). assert (x = oldo) by congruence. subst x. clear Hx.
  assert (P1 := Pinv_shrunk s s1 HS1 P).
  assert (Href1 : is_dirobj s1 oldo = true -> refs s1 oldo = 0).
  { intros Hd. rewrite (sh_dir _ _ HS1) in Hd. apply (refs_zero_iff s1 oldo H1). intros d m K.
    destruct (Nat.eq_dec d odo) as [->|Hne].
    - rewrite (entry_del s s1 odo _ (gi_nodup s H odo) Hd1) in K. destruct (str_eqb m _) eqn:Em; [discriminate|].
      destruct (dir_one_name s _ _ _ _ oldo H Hd Eg K) as [_ Em']. subst m. rewrite str_eqb_refl in Em. discriminate.
    - unfold entry in K. rewrite (Hoth1 d Hne) in K. change (entry s d m = Some oldo) in K.
      destruct (dir_one_name s _ _ _ _ oldo H Hd Eg K) as [Ed _]. congruence. }
  unfold mod_obj. wstep. match goal with |- wp _ ?st _ => set (s2 := st) end.
  assert (H2 : Ginv s2) by (apply Ginv_rename_detached; assumption).
  assert (Ep2 : forall y, o_parent (ob s2 y) = o_parent (ob s1 y)).
  { intros y. unfold s2. rewrite ob_mod. destruct (Nat.eqb y oldo) eqn:E; [apply Nat.eqb_eq in E; subst y|]; reflexivity. }
  assert (Ed2 : forall y, is_dirobj s2 y = is_dirobj s1 y).
  { intros y. unfold s2, is_dirobj. rewrite ob_mod. destruct (Nat.eqb y oldo) eqn:E; [apply Nat.eqb_eq in E; subst y|]; reflexivity. }
  assert (P2 := Pinv_ext s1 s2 Ep2 Ed2 P1).
  wstep. wstep. apply wp_bind.
  match goal with |- wp (when ?b ?m) s2 ?Q => assert (Hrm : wp (when b m) s2 (fun r s3 => Ginv s3 /\ shrunk s2 s3)) end.
  { destruct (assoc _ _); cbn [when]; [|wstep; split; [exact H2|apply shrunk_refl]].
    eapply wp_conseq; [apply (wp_remove_entry ndo _ true s2 H2)|]. intros r s3 [[K1 K2 _] _]. split; assumption. }
  eapply wp_conseq; [exact Hrm|]. clear Hrm. intros [[]|e] s3 [H3 S3]; cbv beta iota; [|apply (Pinv_shrunk s2 s3 S3 P2)].
  assert (P3 := Pinv_shrunk s2 s3 S3 P2).
  assert (Hoff3 : ~ panc s3 ndo oldo).
  { intros K. apply Hoff. apply (panc_ext s s3); [|exact K]. intros z.
    rewrite (shrunk_attr o_parent s2 s3 z S3), Ep2 by reflexivity. apply (shrunk_attr o_parent s s1 z HS1); reflexivity. }
  apply (wp_add_entry_P s3 ndo oldo P3); [|intros _; exact Hoff3]. intros ->. apply Hoff3, panc_refl.
Qed.

Lemma rename_to_existing_pass s force new old oldo ews :
  wp (rename_to_existing force new old oldo ews) s (fun r s1 => s1 = s \/ s1 = snd (remove_object new s)).
Proof.
  unfold rename_to_existing. wstep. wstep. destruct (get_object s new true) as [newo|e]; [|left; reflexivity].
  wstep. wstep. destruct (str_eqb old new); [destruct (_ && _); wstep; left; reflexivity|].
  destruct (Nat.eqb oldo newo); [apply wp_pure; [apply rename_same_object_pure|intros; left; reflexivity]|].
  destruct (_ || _).
  - apply wp_bind, wp_pure; [apply rename_error_pure|]. intros [[]|e] _; [wstep|]; left; reflexivity.
  - destruct (S_ISDIR _); [wstep; left; reflexivity|]. destruct (_ && _); [wstep; left; reflexivity|].
    apply wp_bind. apply wp_intro. intros [[]|e] s1 E; [wstep|]; right; rewrite E; reflexivity.
Qed.

Lemma rename_P s oldp newp force : Ginv s -> Pinv s -> wp (rename oldp newp force) s (fun _ s' => Pinv s').
Proof.
  intros H P. pose proof (Ginv_good s H) as Hg. unfold rename. wstep. wstep. wstep.
  destruct (anp_names s oldp Hg) as (on & Hon & Eon). destruct (anp_names s newp Hg) as (nn & Hnn & Enn). rewrite Eon, Enn. wstep.
  destruct (exists_ s (abs_path (sepc s) on) true) as [[|]|e] eqn:Ee1; cbn [negb]; try (wstep; exact P); [|exact P].
  apply wp_bind, wp_pure; [apply pure_when, handle_broken_link_pure|]. intros [[]|e] _; [|exact P].
  wstep. destruct (lresolve s (abs_path (sepc s) on)) as [oldo|e] eqn:Eold; [|exact P].
  apply wp_bind, wp_pure; [apply pure_when, posix_dir_link_errors_pure|]. intros [[]|e] _; [|exact P].
  wstep. destruct (exists_ s (abs_path (sepc s) nn) true) as [e2|e] eqn:Ee2; [|exact P].
  assert (Hlast : forall s1 q, Ginv s1 -> shrunk s s1 -> wp (rename_move (abs_path (sepc s) on) q oldo) s1 (fun _ s' => Pinv s')).
  { intros s1 q H1 HS. assert (Ec : f_cfg s1 = f_cfg s) by apply (shrunk_cfg _ _ HS).
    apply rename_move_P; [exact H1|apply (Pinv_shrunk s s1 HS P)|]. rewrite Ec. intros d Hd o Ho.
    destruct (names_cases on) as [->|(opre & n0 & ->)].
    - exfalso. change (abs_path (sepc s) []) with [sepc s] in Ho. rewrite (splitpath_root _ (linux_like_posix _ (gi_lin s H))) in Ho. cbn [snd] in Ho.
      destruct (gi_ent s1 H1 d [] o (entry_In _ _ _ _ Ho)) as (_ & _ & K & _). apply K. reflexivity.
    - rewrite (splitpath_abs_path _ (linux_like_posix _ (gi_lin s H)) _ _ Hon) in Hd, Ho. cbn [fst snd] in Hd, Ho.
      destruct (lresolve_reach s opre n0 oldo H Hon Eold) as (d' & Hd' & _ & _ & Hen & _).
      assert (Hd2 := shrunk_resolve_back s s1 _ d H H1 HS (entry_dirobj _ _ _ _ Ho) Hd). assert (d = d') by congruence. subst d'.
      apply (sh_ent _ _ HS) in Ho. congruence. }
  apply wp_bind. destruct e2.
  - eapply wp_conseq; [apply rename_to_existing_pass|].
    intros r s1 Hs1. assert (K : Ginv s1 /\ shrunk s s1).
    { destruct Hs1 as [->| ->]; [split; [exact H|apply shrunk_refl]|]. apply (remove_object_inv s _ H). }
    destruct K as [H1 S1]. assert (P1 := Pinv_shrunk s s1 S1 P).
    destruct r as [[[|c q]|]|e]; cbv beta iota; try (wstep; exact P1); [|exact P1]. apply (Hlast s1 (c :: q) H1 S1).
  - wstep. cbv beta iota. unfold abs_path at 2. apply (Hlast s _ H (shrunk_refl s)).
Qed.
Lemma rename_GP a b f : preserves GP (rename a b f).
Proof. apply GP_G; [apply rename_pres|]. intros s H P. apply rename_P; assumption. Qed.

Lemma add_mount_point_GP p t : preserves GP (add_mount_point p t).
Proof.
  apply GP_G; [apply add_mount_point_pres|]. intros s H P.
  unfold add_mount_point, add_mount_point_. wstep. wstep.
  destruct (assoc _ (f_mounts s)); [wstep; exact P|]. wstep. wstep. wstep. wstep.
  set (s1 := set_mounts _ _).
  assert (H1 : Ginv s1).
  { apply (gsame_Ginv (set_dev s (S (f_dev s)))); [apply gsame_set_mounts|]. apply (gsame_Ginv s _ (gsame_set_dev s _) H). }
  assert (P1 : Pinv s1).
  { apply (Pinv_gsame (set_dev s (S (f_dev s)))); [apply gsame_set_mounts|]. apply (Pinv_gsame s _ (gsame_set_dev s _) P). }
  apply wp_bind.
  match goal with |- wp ?m s1 ?Q => assert (Hm : wp m s1 (fun _ s2 => Pinv s2)) end.
  { destruct (str_eqb _ _).
    - wstep. wstep. unfold mod_obj. wstep. wstep. apply (Pinv_ext s1); [| |exact P1]; intros y; unfold is_dirobj; rewrite ob_mod, ?ob_set_ino;
        (destruct (Nat.eqb y root_oid) eqn:E; [apply Nat.eqb_eq in E; subst y|]; reflexivity).
    - apply (create_dir_P 2 s1 _ PERM_DEF H1 P1). }
  eapply wp_conseq; [exact Hm|]. intros [rd|e] s2 P2; cbv beta iota; [|exact P2].
  wstep. unfold mod_obj. wstep. wstep. apply (Pinv_gsame s2 _ (gsame_odev s2 _ _) P2).
Qed.
Lemma get_disk_usage_GP p : preserves GP (get_disk_usage p).
Proof.
  apply GP_G; [apply get_disk_usage_pres|]. intros s H P. unfold get_disk_usage. apply wp_bind.
  assert (K : forall r : res str, match r with Ok k => wp (m <- gets (fun s => assoc k (f_mounts s)) ;;
     match m with Some m => ret (disk_usage_of m) | None => raise KeyErr end) s (fun _ s' => Pinv s') | Err e => Pinv s end).
  { intros [k|e]; [|exact P]. wstep. destruct (assoc k _); wstep; exact P. }
  destruct p as [p|].
  - apply wp_mount_point; [apply (Ginv_win s H)|exact K].
  - wstep. apply (K (Ok _)).
Qed.
Lemma set_disk_usage_GP t p : preserves GP (set_disk_usage t p).
Proof.
  apply GP_G; [apply set_disk_usage_pres|]. intros s H P. unfold set_disk_usage.
  assert (K : forall q, wp (k <- mount_point_for_path q ;; m <- gets (fun s => assoc k (f_mounts s)) ;;
    match m with
    | None => raise KeyErr
    | Some m =>
      if match m_total m with Some _ => (t <? m_used m)%Z | None => false end
      then raise_os ENOSPC
      else modify (fun s => set_mounts s (set_assoc k (mkmount (m_idev m) (Some t) (m_used m)) (f_mounts s)))
    end) s (fun _ s' => Pinv s')).
  { intros q. apply wp_bind, wp_mount_point; [apply (Ginv_win s H)|]. intros [k|e]; [|exact P].
    wstep. destruct (assoc k _) as [m|]; [|wstep; exact P]. destruct (match m_total m with Some _ => _ | None => _ end).
    - wstep. exact P.
    - wstep. apply (Pinv_gsame s _ (gsame_set_mounts s _) P). }
  destruct p as [p|]; apply wp_bind; wstep; cbv beta iota; apply K.
Qed.
Lemma close_file_GP w : preserves GP (close_file w).
Proof.
  unfold close_file. pres; try first [apply remove_object_GP|apply GP_gsame, wget_keeps|apply GP_gsame, flush_keeps|apply GP_gsame, close_open_file_keeps].
  - apply GP_gsame, mod_time_keeps. intros ?; cbn; auto 10.
  - apply GP_gsame, keeps_modify_nograph. intros s. destruct (py_index _ _) as [[l|]|]; repeat split.
Qed.
Lemma close_wrapper_GP w : preserves GP (close_wrapper w).
Proof.
  unfold close_wrapper. pres; try first [apply GP_gsame, wget_keeps|apply GP_gsame, close_open_file_keeps|apply close_file_GP].
  apply GP_gsame, keeps_modify_nograph. intros s. repeat split.
Qed.
Lemma init_file_object_GP fo a b om : preserves GP (init_file_object fo a b om).
Proof. unfold init_file_object. pres; first [apply GP_gsame, set_contents_keeps|apply create_file_internally_GP]. Qed.
Lemma handle_file_arg_GP a d : preserves GP (handle_file_arg a d).
Proof. unfold handle_file_arg. pres; apply GP_gsame, wget_keeps. Qed.
Lemma open_call_GP a om b c r d : preserves GP (open_call a om b c r d).
Proof.
  unfold open_call. pres; try first [apply handle_file_arg_GP|apply GP_gsame, add_wrap_keeps|apply init_file_object_GP|apply GP_gsame, alloc_wrap_keeps].
  - apply GP_gsame, mod_time_keeps. intros ?; cbn. destruct (c_win _); cbn; auto 10.
  - apply GP_gsame, keeps_modify_nograph. intros s. destruct (py_index _ _) as [[l|]|]; repeat split.
Qed.
Lemma open_GP a m b c : preserves GP (open_ a m b c).
Proof. unfold open_. pres. apply open_call_GP. Qed.
Lemma os_open_GP p fl m u : preserves GP (os_open p fl m u).
Proof.
  unfold os_open. pres; first [apply GP_gsame, add_wrap_keeps|apply GP_gsame, wget_keeps|apply open_call_GP|apply GP_gsame, chmod_keeps].
Qed.
Lemma chdir_GP a : preserves GP (chdir a).
Proof.
  apply GP_G; [apply chdir_pres|]. intros s H P. unfold chdir. wstep. apply wp_bind, wp_catch. wstep.
  destruct (resolve_path_arg s a) as [p|e] eqn:E.
  - wstep. destruct (confirmdir _ _); [|exact P]. wstep. destruct (resolve _ _ _); [|exact P].
    wstep. destruct (_ && _); wstep; [exact P|]. apply (Pinv_ext s); [reflexivity|reflexivity|exact P].
  - destruct e as [e| | | | | | | | | |]; try (wstep; exact P). destruct e; try (wstep; exact P). destruct (c_mac _); wstep; exact P.
Qed.

Lemma step_GP o : preserves GP (step o).
Proof.
  destruct o; cbn [step]; apply outm_pres.
  - apply create_file_internally_GP.
  - apply create_dir_GP.
  - apply create_symlink_GP.
  - apply create_link_GP.
  - unfold os_symlink. pres. apply create_symlink_GP.
  - unfold os_link. pres. apply create_link_GP.
  - apply makedir_GP.
  - apply makedirs_GP.
  - apply mknod_GP.
  - apply remove_GP.
  - apply rmdir_GP.
  - apply removedirs_GP.
  - apply remove_object_GP.
  - apply rename_GP.
  - apply GP_gsame, chmod_keeps.
  - apply GP_gsame, lchmod_keeps.
  - apply GP_gsame, utime_keeps.
  - apply GP_gsame, chown_keeps.
  - apply GP_gsame, umask_keeps.
  - apply chdir_GP.
  - apply GP_gsame, setxattr_keeps.
  - apply GP_gsame, removexattr_keeps.
  - apply GP_gsame, os_truncate_keeps.
  - apply GP_gsame, os_ftruncate_keeps.
  - apply add_mount_point_GP.
  - apply set_disk_usage_GP.
  - apply get_disk_usage_GP.
  - apply GP_gsame, fs_set_contents_keeps.
  - apply open_GP.
  - apply os_open_GP.
  - unfold os_close. pres. apply close_wrapper_GP.
  - apply GP_gsame, os_read_keeps.
  - apply GP_gsame, os_write_keeps.
  - apply GP_gsame, os_pipe_keeps.
  - apply GP_gsame, file_read_keeps.
  - apply GP_gsame, file_write_keeps.
  - apply GP_gsame, file_seek_keeps.
  - apply GP_gsame, file_tell_keeps.
  - apply GP_gsame, file_truncate_keeps.
  - apply GP_gsame, flush_wrapper_keeps.
  - apply close_wrapper_GP.
  - apply GP_gsame, keeps_modify_nograph; intros s; repeat split.
  - apply GP_gsame, keeps_modify_nograph; intros s; repeat split.
  - apply GP_gsame, keeps_modify_nograph; intros s; repeat split.
Qed.
Lemma Pinv_init c total um uid gid now : Pinv (init c total um uid gid now).
Proof.
  constructor.
  - intros [|[|x]] p K; discriminate.
  - intros [|[|x]] K; try discriminate. exists 0. apply pf_0. reflexivity.
Qed.
Theorem reachable_Pinv c s : linux_like c -> reachable c s -> Pinv s.
Proof.
  intros Hl (total & um & uid & gid & now & ops & ->). apply (run_pres GP step_GP). split; [apply Ginv_init, Hl|apply Pinv_init].
Qed.

(** ** Consequences *)
Lemma pfin_det s x n : pfin s x n -> forall m, pfin s x m -> n = m.
Proof.
  induction 1 as [x Hx|x p n Hx _ IH]; intros m Hm; inversion Hm as [? K|? p' k K K']; subst; try congruence.
  assert (p' = p) by congruence. subst p'. rewrite (IH k K'). reflexivity.
Qed.
(** the objects on a chain *)
Lemma pfin_chain s x n : Ginv s -> Pinv s -> pfin s x n -> is_dirobj s x = true ->
  exists l, length l = S n /\ NoDup l /\ (forall y, In y l -> y < f_next s /\ exists k, k <= n /\ pfin s y k).
Proof.
  intros H P. induction 1 as [x Hx|x p n Hx Hp IH]; intros Hd.
  - exists [x]. split; [reflexivity|]. split; [constructor; [intros []|constructor]|].
    intros y [<-|[]]. split; [apply (dirobj_lt s x H Hd)|]. exists 0. split; [lia|]. apply pf_0, Hx.
  - destruct (IH (pi_dir s P x p Hx)) as (l & Hl & Hnd & Hin). exists (x :: l). split; [cbn; lia|]. split.
    + constructor; [|exact Hnd]. intros K. destruct (Hin x K) as (_ & k & Hk & Kk).
      assert (S n = k) by (apply (pfin_det s x (S n)); [apply (pf_S _ _ p); assumption|exact Kk]). lia.
    + intros y [<-|K].
      * split; [apply (dirobj_lt s x H Hd)|]. exists (S n). split; [lia|]. apply (pf_S _ _ p); assumption.
      * destruct (Hin y K) as (Hy & k & Hk & Kk). split; [exact Hy|]. exists k. split; [lia|exact Kk].
Qed.
Lemma pfin_bound s x n : Ginv s -> Pinv s -> pfin s x n -> is_dirobj s x = true -> n < f_next s.
Proof.
  intros H P Hn Hd. destruct (pfin_chain s x n H P Hn Hd) as (l & Hl & Hnd & Hin).
  assert (K : length l <= f_next s).
  { rewrite <- (seq_length (f_next s) 0). apply NoDup_incl_length; [exact Hnd|]. intros y Hy. apply in_seq. destruct (Hin y Hy). lia. }
  lia.
Qed.
Lemma chain_names_some s x n : pfin s x n -> forall fuel, n < fuel -> chain_names fuel s x <> None.
Proof.
  induction 1 as [x Hx|x p n Hx _ IH]; intros [|fuel] Hf; try lia; cbn [chain_names]; rewrite Hx; [discriminate|].
  specialize (IH fuel ltac:(lia)). destruct (chain_names fuel s p); congruence.
Qed.
Lemma obj_path_ok s o : Ginv s -> Pinv s -> exists p, obj_path s o = Ok p.
Proof.
  intros H P. unfold obj_path.
  assert (K : chain_names (S (f_next s)) s o <> None).
  { cbn [chain_names]. destruct (o_parent (ob s o)) as [d|] eqn:E; [|discriminate].
    assert (Hd := pi_dir s P o d E). destruct (pi_fin s P d Hd) as [n Hn]. assert (Hb := pfin_bound s d n H P Hn Hd).
    assert (K := chain_names_some s d n Hn (f_next s) Hb). destruct (chain_names (f_next s) s d); congruence. }
  destruct (chain_names (S (f_next s)) s o); [|congruence]. eexists. reflexivity.
Qed.
