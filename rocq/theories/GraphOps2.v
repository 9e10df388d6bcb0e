(** * The operations on the tree keep the graph invariant. *)
From Verif Require Export GraphOps.

Lemma refs_zero_iff s o : Ginv s -> refs s o = 0 <-> forall d n, entry s d n <> Some o.
Proof.
  intros H. split.
  - intros E d n Hd. pose proof (refs_pos s d n o H (entry_In _ _ _ _ Hd)). lia.
  - intros E. apply refs_zero. intros d n Hi. apply (E d n), In_entry; assumption.
Qed.
Lemma shrunk_refs_zero s s' o : Ginv s -> Ginv s' -> shrunk s s' -> refs s o = 0 -> refs s' o = 0.
Proof.
  intros H H' S. rewrite (refs_zero_iff s o H), (refs_zero_iff s' o H').
  intros E d n K. apply (E d n), (sh_ent _ _ S), K.
Qed.

(** ** Lookups find objects of the tree, or the null device *)
Lemma resolve_found s p c o : Ginv s -> resolve s p c = Ok o -> o = devnull_oid \/ exists names, at_names s names = Some o.
Proof.
  intros H E. apply (resolve_ok s (Ginv_good s H)) in E. destruct E as (rr & _ & _ & [[_ ->]|(_ & Ho & _)]); [left; reflexivity|].
  right. exists rr. exact Ho.
Qed.
Lemma at_names_lt s names o : Ginv s -> at_names s names = Some o -> o < f_next s.
Proof. intros H. apply tree_at_lt; [exact H|]. pose proof (gi_next s H). unfold root_oid. lia. Qed.
Lemma at_names_refs s names o : Ginv s -> at_names s names = Some o -> o = root_oid \/ 0 < refs s o.
Proof.
  intros H. destruct names as [|n names _] using rev_ind; [intros E; injection E as <-; left; reflexivity|].
  intros E. apply at_names_snoc_inv in E. destruct E as (d & _ & E). right. apply (refs_pos s d n o H (entry_In _ _ _ _ E)).
Qed.
Lemma resolve_lt s p c o : Ginv s -> resolve s p c = Ok o -> o < f_next s.
Proof.
  intros H E. destruct (resolve_found s p c o H E) as [->|[names Ho]]; [|apply (at_names_lt s names o H Ho)].
  pose proof (gi_next s H). unfold devnull_oid. lia.
Qed.

(** ** Path facts *)
Lemma exists_root s cl : Ginv s -> exists_ s (abs_path (sepc s) []) cl = Ok true.
Proof.
  intros H. pose proof (Ginv_good s H) as Hg. unfold exists_.
  assert (Hb : exists_body (exists_top s) s (abs_path (sepc s) []) false = Ok true).
  { apply (exists_names s Hg); [constructor|]. right. exists [], root_oid. split; [|split; [constructor|reflexivity]].
    apply (resolve_path_ok s Hg). split; [discriminate|]. split.
    - apply rfind_none_valid. unfold abs_path. cbn. rewrite Ascii.eqb_refl. reflexivity.
    - exists [], []. split; [constructor|]. split; [apply anp_abs_path; [exact Hg|constructor]|]. split; [|reflexivity].
      right. split; [intros [K _]; congruence|]. exists 0. split; [lia|]. apply res_done.
      intros pre n l rest (E & _). destruct pre; discriminate. }
  destruct cl; [|exact Hb]. unfold exists_body in *. cbn [rbind] in Hb.
  assert (Ht : is_of_type_ (exists_top s) s (abs_path (sepc s) []) S_IFLNK false = Ok false).
  { unfold is_of_type_, resolve_any. rewrite (lresolve_root s). cbn [rbind].
    rewrite (raise_for_sep_names s Hg) by constructor. cbn [rbind].
    assert (K := gi_dirbit s H root_oid (gi_root s H)). apply has_ifdir_not_link in K. unfold S_ISLNK in K. rewrite K. reflexivity. }
  rewrite Ht. cbn [rbind]. exact Hb.
Qed.

Lemma names_cases (names : list str) : names = [] \/ exists pre n, names = pre ++ [n].
Proof. destruct names as [|n names _] using rev_ind; [left; reflexivity|right; exists names, n; reflexivity]. Qed.

Lemma ordinary_last sp pre n : Forall (ordinary sp) (pre ++ [n]) -> Forall (ordinary sp) pre /\ ordinary sp n.
Proof. intros H. apply Forall_app in H. destruct H as [H1 H2]. inversion H2; subst. split; assumption. Qed.

(** ** add_entry and add_object with the invariant *)
Lemma wp_add_entry_inv s d o : Ginv s -> d <> o -> o < f_next s -> o <> root_oid ->
  ordinary (sepc s) (o_name (ob s o)) -> (is_dirobj s o = true -> refs s o = 0) -> ~ reach s o d ->
  wp (add_entry d o) s (fun r s' => Ginv s' /\
    ((r <> Ok tt /\ s' = s /\
       (r = Err AttrErr \/ r = Err (OSErr EACCES) \/ r = Err (OSErr EEXIST))) \/
     (is_dirobj s d = true /\ entry s d (o_name (ob s o)) = None /\ added s s' d o /\
       (r = Ok tt \/ r = Err (OSErr ENOSPC))))).
Proof.
  intros H Hn Ho Hr Hnm Href Hac. eapply wp_conseq; [apply wp_add_entry, Hn|].
  intros r s' Hc. split; [|exact Hc]. destruct Hc as [(_ & -> & _)|(Hd & He & Ha & _)]; [exact H|].
  apply (Ginv_added s s' d o Hn Hd Ha H Ho Hr Hnm He Href Hac).
Qed.

(** objects that can be added anywhere *)
Record addable (s : fs) (o : oid) : Prop := {
  ad_lt : o < f_next s;
  ad_root : o <> root_oid;
  ad_name : ordinary (sepc s) (o_name (ob s o));
  ad_free : (refs s o = 0 /\ o <> devnull_oid) \/ has_bit (o_mode (ob s o)) S_IFDIR = false;
  ad_ents : ents s o = []
}.

Lemma resolved_not_addable s o p c d : Ginv s -> addable s o -> resolve s p c = Ok d ->
  S_ISDIR (o_mode (ob s d)) = true -> d <> o.
Proof.
  intros H A E Hd ->. destruct (ad_free s o A) as [[Hr Hn]|Hb].
  - destruct (resolve_found s p c o H E) as [K|[names K]]; [congruence|].
    destruct (at_names_refs s names o H K) as [K2|K2]; [apply (ad_root s o A K2)|lia].
  - rewrite (isdir_has_ifdir _ Hd) in Hb. discriminate.
Qed.
Lemma addable_noreach s o d : addable s o -> d <> o -> ~ reach s o d.
Proof.
  intros A Hn [[|n ns] E]; simpl in E; [congruence|]. unfold entry in E. rewrite (ad_ents s o A) in E. discriminate.
Qed.
Lemma addable_refs s o : Ginv s -> addable s o -> is_dirobj s o = true -> refs s o = 0.
Proof.
  intros H A Ho. destruct (ad_free s o A) as [[Hr _]|Hb]; [exact Hr|].
  rewrite (gi_dirbit s H o Ho) in Hb. discriminate.
Qed.

Lemma wp_add_addable s d o : Ginv s -> addable s o -> d <> o ->
  wp (add_entry d o) s (fun r s' => Ginv s' /\
    ((r <> Ok tt /\ s' = s /\
       (r = Err AttrErr \/ r = Err (OSErr EACCES) \/ r = Err (OSErr EEXIST))) \/
     (is_dirobj s d = true /\ entry s d (o_name (ob s o)) = None /\ added s s' d o /\
       (r = Ok tt \/ r = Err (OSErr ENOSPC))))).
Proof.
  intros H A Hn. apply wp_add_entry_inv; [exact H|exact Hn|apply A|apply A|apply A| |].
  - apply addable_refs; assumption.
  - apply addable_noreach; assumption.
Qed.

(** add_object for an object that is not a directory with contents *)
Lemma wp_add_object s p o : Ginv s -> addable s o ->
  wp (add_object p o) s (fun r s' => Ginv s' /\
    ((s' = s /\ exists e, r = Err e) \/
     exists d, (p = [] /\ d = root_oid \/ resolve s p true = Ok d) /\ is_dirobj s d = true /\ d <> o /\
       entry s d (o_name (ob s o)) = None /\ added s s' d o /\ (r = Ok tt \/ r = Err (OSErr ENOSPC)))).
Proof.
  intros H A. unfold add_object. apply wp_bind.
  destruct (str_eqb_spec p []) as [->|Hp].
  - wstep. cbv beta iota. eapply wp_conseq; [apply wp_add_addable; [exact H|exact A|]|].
    + intros E. apply (ad_root s o A). symmetry. exact E.
    + intros r s' [H' [(Hr & -> & Hc)|(Hd & He & Ha & Hr)]]; (split; [exact H'|]).
      * left. split; [reflexivity|]. destruct Hc as [->|[->| ->]]; eexists; reflexivity.
      * right. exists root_oid. split; [left; auto|]. split; [exact Hd|].
        split; [intros E; apply (ad_root s o A); symmetry; exact E|]. auto.
  - wstep. destruct (resolve s p true) as [d|e] eqn:E.
    2:{ split; [exact H|]. left; eauto. }
    wstep. wstep. destruct (S_ISDIR (o_mode (ob s d))) eqn:Ed; cbn [negb].
    2:{ wstep. split; [exact H|]. left; eauto. }
    wstep. assert (Hn := resolved_not_addable s o p true d H A E Ed).
    eapply wp_conseq; [apply wp_add_addable; [exact H|exact A|exact Hn]|].
    intros r s' [H' [(Hr & -> & Hc)|(Hd & He & Ha & Hr)]]; (split; [exact H'|]).
    + left. split; [reflexivity|]. destruct Hc as [->|[->| ->]]; eexists; reflexivity.
    + right. exists d. split; [right; reflexivity|]. auto.
Qed.

(** The new object of [alloc] can be added. *)
Lemma addable_alloc s nm mode b : Ginv s -> ordinary (sepc s) nm ->
  b = BDir [] \/ (exists d, b = BFile d) -> (b = BDir [] -> has_bit mode S_IFDIR = true) ->
  addable (snd (alloc nm mode b s)) (f_next s).
Proof.
  intros H Hn Hb Hm. pose proof (gi_next s H) as H2. set (s' := snd (alloc nm mode b s)).
  assert (H' : Ginv s') by (apply Ginv_alloc; assumption).
  assert (Es : forall o, ents s' o = ents s o) by (intros o; apply ents_alloc; [exact Hb|apply (gi_new s H)]).
  constructor.
  - change (f_next s') with (S (f_next s)). lia.
  - unfold root_oid. lia.
  - change (sepc s') with (sepc s). unfold ob, s'. cbn. unfold upd. rewrite Nat.eqb_refl. exact Hn.
  - left. split; [|unfold devnull_oid; lia]. apply (refs_zero_iff s' _ H'). intros d n E. unfold entry in E. rewrite Es in E.
    pose proof (entry_lt s d n _ H E). lia.
  - rewrite Es. pose proof (gi_new s H _ (le_n _)) as K. unfold ents, is_dirobj in *. destruct (o_body (ob s (f_next s))); [discriminate|reflexivity].
Qed.

(** ** remove_object *)
Lemma resolve_exn s p c e : Ginv s -> resolve s p c = Err e -> (exists en, e = OSErr en) \/ e = AttrErr \/
  (exists e', resolve_path s p = Err e' /\ e = e').
Proof.
  intros H E. apply (resolve_err s (Ginv_good s H)) in E. destruct E as [E|[E|[E|[E|E]]]]; subst; eauto 6.
Qed.

Lemma wp_remove_object s p names : Ginv s -> anp s p = abs_path (sepc s) names -> Forall (ordinary (sepc s)) names ->
  wp (remove_object p) s (fun r s' =>
    (s' = s /\ (exists e, r = Err e) /\
       (names = [] \/ exists pre n, names = pre ++ [n] /\
          forall d x, resolve s (abs_path (sepc s) pre) false = Ok d -> entry s d n = Some x -> False)) \/
    exists pre n d x, names = pre ++ [n] /\ resolve s (abs_path (sepc s) pre) false = Ok d /\ entry s d n = Some x /\
      rm_post s s' d n /\
      match r with
      | Ok _ => ents s' d = del_assoc n (ents s d) /\ emptied s s' x
      | Err er => ents s' d = ents s d /\ rm_err er
      end).
Proof.
  intros H Ep Hn. pose proof (Ginv_good s H) as Hg. pose proof (gi_lin s H) as Hl.
  unfold remove_object. wstep. rewrite (original_path_cs s p (Ginv_cs s H)), Ep.
  wstep. rewrite (is_root_path_linux _ _ Hl), (abs_path_root_eq _ _ (Forall_clean _ _ Hn)).
  destruct (names_cases names) as [->|(pre & n & ->)].
  { wstep. left. split; [reflexivity|]. split; [eauto|auto]. }
  replace (match pre ++ [n] with [] => true | _ :: _ => false end) with false by (destruct pre; reflexivity).
  apply wp_catch. wstep. rewrite (splitpath_abs_path _ (linux_like_posix _ Hl) _ _ Hn). cbn [fst snd].
  wstep. destruct (resolve s (abs_path (sepc s) pre) false) as [d|e] eqn:E.
  2:{ destruct e; cbv beta iota; wstep; left; (split; [reflexivity|]; split; [eauto|]); right;
      exists pre, n; (split; [reflexivity|]); intros d x K; rewrite E in K; discriminate. }
  wstep. destruct (is_dirobj s d) eqn:Hd; cbn [negb].
  2:{ wstep. cbv beta iota. left. split; [reflexivity|]. split; [eexists; reflexivity|]. right.
      exists pre, n. split; [reflexivity|]. intros d' x K1 K2. assert (d' = d) by congruence. subst d'.
      rewrite (entry_dirobj _ _ _ _ K2) in Hd. discriminate. }
  eapply wp_conseq; [apply wp_remove_entry, H|].
  intros [[]|er] s1 [HP HR]; cbv beta iota.
  - destruct HR as (x & Hx & Hd1 & Hem). right. exists pre, n, d, x.
    split; [reflexivity|]. split; [exact E|]. split; [exact Hx|]. split; [exact HP|]. split; assumption.
  - destruct HR as (Hents & _ & Her). destruct (entry s d n) as [x|] eqn:Hx.
    + destruct Her as [->| ->]; cbv beta iota; wstep; right; exists pre, n, d, x; (split; [reflexivity|]);
        (split; [exact E|]); (split; [exact Hx|]); (split; [exact HP|]); (split; [exact Hents|]); [left|right]; reflexivity.
    + rewrite Hd in Her. destruct Her as [-> ->]. cbv beta iota. wstep. left. split; [reflexivity|]. split; [eauto|].
      right. exists pre, n. split; [reflexivity|]. intros d' x K1 K2. congruence.
Qed.

Lemma remove_object_inv s p : Ginv s -> wp (remove_object p) s (fun r s' => Ginv s' /\ shrunk s s').
Proof.
  intros H. destruct (anp_names s p (Ginv_good s H)) as (names & Hn & E).
  eapply wp_conseq; [apply (wp_remove_object s p names H E Hn)|].
  intros r s' [(-> & _)|(pre & n & d & x & _ & _ & _ & HP & _)].
  - split; [exact H|apply shrunk_refl].
  - destruct HP; auto.
Qed.
