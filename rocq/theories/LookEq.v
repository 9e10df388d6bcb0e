(** * What lookups depend on.

    Two states with the same configuration, current directory and user, the
    same directory entries, the same type bits and read permission bits, and
    the same link texts answer every lookup alike.  So attribute changes and
    writes to files do not move any path. *)
From Verif Require Import Str PathModel FsModel FsSpec OpsModel IoModel SysModel.

Record same_tree (a b : fs) : Prop := {
  st_cfg : f_cfg b = f_cfg a;
  st_cwd : f_cwd b = f_cwd a;
  st_uid : f_uid b = f_uid a;
  st_null : devnull_name b = devnull_name a;
  st_dir : forall o, is_dirobj b o = is_dirobj a o;
  st_ents : forall o, ents b o = ents a o;
  st_type : forall o, S_IFMT (o_mode (ob b o)) = S_IFMT (o_mode (ob a o));
  st_text : forall o, is_link a o = true -> o_body (ob b o) = o_body (ob a o)
}.
Definition same_read (a b : fs) : Prop :=
  forall o, has_bit (o_mode (ob b o)) PERM_READ = has_bit (o_mode (ob a o)) PERM_READ.

Section Look.
Variables a b : fs.
Hypothesis T : same_tree a b.
Notation L0 := (st_cfg a b T).

Lemma lk_islnk o : S_ISLNK (o_mode (ob b o)) = S_ISLNK (o_mode (ob a o)).
Proof. unfold S_ISLNK. rewrite (st_type a b T). reflexivity. Qed.
Lemma lk_isdir o : S_ISDIR (o_mode (ob b o)) = S_ISDIR (o_mode (ob a o)).
Proof. unfold S_ISDIR. rewrite (st_type a b T). reflexivity. Qed.
Lemma lk_isreg o : S_ISREG (o_mode (ob b o)) = S_ISREG (o_mode (ob a o)).
Proof. unfold S_ISREG. rewrite (st_type a b T). reflexivity. Qed.
Lemma has_dir_type m : has_bit m S_IFDIR = has_bit (S_IFMT m) S_IFDIR.
Proof. unfold has_bit, S_IFMT. rewrite <- N.land_assoc. reflexivity. Qed.
Lemma lk_hasdir o : has_bit (o_mode (ob b o)) S_IFDIR = has_bit (o_mode (ob a o)) S_IFDIR.
Proof. rewrite has_dir_type, (st_type a b T), <- has_dir_type. reflexivity. Qed.
Lemma lk_root : is_root b = is_root a.
Proof. unfold is_root. rewrite (st_uid a b T). reflexivity. Qed.
Lemma lk_text o : S_ISLNK (o_mode (ob a o)) = true -> text_contents b o = text_contents a o.
Proof. intros E. unfold text_contents. rewrite (st_text a b T o E). reflexivity. Qed.
Lemma lk_body o : match o_body (ob b o) with BDir es => o_body (ob a o) = BDir es | BFile _ => exists d, o_body (ob a o) = BFile d end.
Proof.
  pose proof (st_dir a b T o) as H1. pose proof (st_ents a b T o) as H2. unfold is_dirobj, ents in *.
  destruct (o_body (ob b o)), (o_body (ob a o)); try discriminate; [congruence|eauto].
Qed.
Lemma lk_content d n : directory_content b d n = directory_content a d n.
Proof.
  unfold directory_content. rewrite L0. pose proof (lk_body d) as K.
  destruct (o_body (ob b d)); [rewrite K; reflexivity|destruct K as [x ->]; reflexivity].
Qed.
Lemma lk_entryname d n : normalized_entryname b d n = normalized_entryname a d n.
Proof. unfold normalized_entryname. rewrite L0, (st_ents a b T). reflexivity. Qed.
Lemma lk_get_entry d n : get_entry b d n = get_entry a d n.
Proof.
  unfold get_entry. rewrite lk_entryname. pose proof (lk_body d) as K.
  destruct (o_body (ob b d)); [rewrite K; reflexivity|destruct K as [x ->]; reflexivity].
Qed.
Lemma lk_orig_walk comps : forall d, orig_walk b d comps = orig_walk a d comps.
Proof.
  induction comps as [|x comps IH]; intros d; cbn; [reflexivity|]. rewrite (st_dir a b T), lk_content.
  destruct (is_dirobj a d); [|reflexivity]. destruct (directory_content a d x) as [[n o]|]; [rewrite IH|]; reflexivity.
Qed.
Lemma lk_original p : original_path b p = original_path a p.
Proof. unfold original_path. rewrite L0, lk_orig_walk. reflexivity. Qed.
Lemma lk_anp p : anp b p = anp a p.
Proof. unfold anp. rewrite L0, (st_cwd a b T). reflexivity. Qed.
Lemma lk_walk comps : forall d r, walk_comps b d r comps = walk_comps a d r comps.
Proof.
  induction comps as [|x comps IH]; intros d r; cbn; [reflexivity|]. rewrite lk_content.
  destruct (directory_content a d x) as [[n o]|]; [|reflexivity]. rewrite lk_islnk, IH. reflexivity.
Qed.
Lemma walk_link comps : forall d r r' l rest, walk_comps a d r comps = WLink r' l rest -> S_ISLNK (o_mode (ob a l)) = true.
Proof.
  induction comps as [|x comps IH]; intros d r r' l rest; cbn; [discriminate|].
  destruct (directory_content a d x) as [[n o]|]; [|discriminate]. destruct (S_ISLNK (o_mode (ob a o))) eqn:E; [|apply IH].
  intros K. injection K as <- <- <-. exact E.
Qed.
Lemma lk_components k : forall comps, resolve_components k b comps = resolve_components k a comps.
Proof.
  induction k as [|k IH]; intros comps; cbn; rewrite lk_walk; destruct (walk_comps a root_oid [] comps) as [r|r l rest] eqn:E; try reflexivity.
  unfold follow_link. rewrite L0, lk_text by (eapply walk_link; eauto).
  destruct (text_contents a l); cbn; [rewrite IH|]; reflexivity.
Qed.

Section Ex.
Variables exa exb : str -> res bool.
Hypothesis EX : forall p, exb p = exa p.
Lemma lk_valid fuel : forall p, valid_rel exb fuel b p = valid_rel exa fuel a p.
Proof.
  induction fuel as [|n IH]; intros p; cbn; rewrite L0; destruct (c_win (f_cfg a)); try reflexivity;
    destruct (rfind_pre _ p) as [q|]; try reflexivity. rewrite lk_anp, EX. destruct (exa (anp a q)) as [[]|]; cbn; [apply IH|reflexivity|reflexivity].
Qed.
Lemma lk_resolve_path_ p : resolve_path_ exb b p = resolve_path_ exa a p.
Proof.
  unfold resolve_path_. rewrite lk_valid, lk_original, lk_anp, L0, (st_null a b T), lk_components. reflexivity.
Qed.
Lemma lk_norm_walk rla rlb check : (forall t, rlb t = rla t) ->
  (check = false \/ is_root a = true \/ same_read a b) ->
  forall comps d, norm_walk rlb b check d comps = norm_walk rla a check d comps.
Proof.
  intros Hrl Hp. induction comps as [|x comps IH]; intros d; cbn; [reflexivity|]. rewrite lk_islnk.
  assert (E : (if S_ISLNK (o_mode (ob a d)) then let* t := text_contents b d in rlb t else Ok d) =
              (if S_ISLNK (o_mode (ob a d)) then let* t := text_contents a d in rla t else Ok d)).
  { destruct (S_ISLNK (o_mode (ob a d))) eqn:E1; [|reflexivity]. rewrite lk_text by exact E1. destruct (text_contents a d); cbn; [apply Hrl|reflexivity]. }
  rewrite E. clear E. destruct (if S_ISLNK (o_mode (ob a d)) then let* t := text_contents a d in rla t else Ok d) as [t|e]; cbn; [|reflexivity].
  rewrite lk_isdir, L0, lk_get_entry. destruct (negb (S_ISDIR _)); [reflexivity|]. destruct (get_entry a t x) as [o|e]; [|reflexivity].
  rewrite lk_root, IH. destruct Hp as [->|[->|Hp]]; [rewrite !andb_false_r; reflexivity|reflexivity|rewrite Hp; reflexivity].
Qed.
Lemma lk_get_norm rla rlb p check : (forall t, rlb t = rla t) ->
  (check = false \/ is_root a = true \/ same_read a b) -> get_norm rlb b p check = get_norm rla a p check.
Proof.
  intros H1 H2. unfold get_norm. rewrite L0, (st_null a b T), lk_original, (lk_norm_walk rla rlb check H1 H2). reflexivity.
Qed.
Lemma lk_resolve_ p check : (check = false \/ is_root a = true \/ same_read a b) -> resolve_ exb b p check = resolve_ exa a p check.
Proof.
  intros H. unfold resolve_. rewrite lk_resolve_path_. destruct (resolve_path_ exa a p); cbn; [|reflexivity].
  apply lk_get_norm; [reflexivity|exact H].
Qed.
Section Weak.
Hypothesis W : is_root a = true \/ same_read a b.
Lemma lk_raise_ p o f m : raise_for_sep_ exb b p o f m = raise_for_sep_ exa a p o f m.
Proof.
  unfold raise_for_sep_. rewrite L0, lk_islnk, lk_resolve_ by (right; exact W). destruct (ends_with_path_separator _ p); [|reflexivity].
  destruct (S_ISLNK (o_mode (ob a o))); [destruct (resolve_ exa a p true) as [x|]; [|reflexivity]|]; rewrite ?lk_isreg, ?lk_isdir, ?lk_islnk; reflexivity.
Qed.
Lemma lk_type_follow_ p fl : is_of_type_ exb b p fl true = is_of_type_ exa a p fl true.
Proof.
  unfold is_of_type_, resolve_any. rewrite lk_resolve_ by (right; exact W). destruct (resolve_ exa a p true); cbn; [|reflexivity].
  rewrite lk_raise_. destruct (raise_for_sep_ _ _ _ _ _ _); cbn; [|reflexivity]. rewrite (st_type a b T). reflexivity.
Qed.
Lemma lk_exists_walk comps : forall d, exists_walk b d comps = exists_walk a d comps.
Proof.
  induction comps as [|x comps IH]; intros d; cbn; [reflexivity|]. rewrite lk_content. destruct (directory_content a d x) as [[n o]|]; auto.
Qed.
Lemma lk_exists_follow_ p : exists_body exb b p false = exists_body exa a p false.
Proof.
  unfold exists_body. rewrite L0, (st_null a b T), lk_type_follow_, lk_resolve_path_. cbn.
  destruct (str_eqb p []); [reflexivity|]. destruct (str_eqb p (devnull_name a)); [reflexivity|].
  destruct (if ends_with_path_separator (f_cfg a) p then _ else Ok false) as [[]|]; cbn; [reflexivity| |reflexivity].
  destruct (resolve_path_ exa a p); cbn; [rewrite lk_exists_walk|]; reflexivity.
Qed.
End Weak.
Section Strong.
Hypothesis R : same_read a b.
Lemma lk_lresolve_ p : lresolve_ exb b p = lresolve_ exa a p.
Proof.
  unfold lresolve_. rewrite L0, lk_original, (st_cwd a b T). destruct (str_eqb p []); [reflexivity|]. destruct (str_eqb p [_]); [reflexivity|].
  destruct (splitpath _ _) as [h t]. rewrite lk_resolve_ by (right; right; exact R).
  destruct (resolve_ exa a _ true); cbn; [|reflexivity]. rewrite (st_dir a b T), R, lk_get_entry. reflexivity.
Qed.
Lemma lk_type_ p fl f : is_of_type_ exb b p fl f = is_of_type_ exa a p fl f.
Proof.
  destruct f; [apply lk_type_follow_; right; exact R|]. unfold is_of_type_, resolve_any. rewrite lk_lresolve_.
  destruct (lresolve_ exa a p); cbn; [|reflexivity]. rewrite lk_raise_ by (right; exact R).
  destruct (raise_for_sep_ _ _ _ _ _ _); cbn; [|reflexivity]. rewrite (st_type a b T). reflexivity.
Qed.
Lemma lk_exists_ p cl : exists_body exb b p cl = exists_body exa a p cl.
Proof.
  destruct cl; [|apply lk_exists_follow_; right; exact R].
  pose proof (lk_exists_follow_ (or_intror R) p) as K. unfold exists_body in *. rewrite lk_type_. cbn in K.
  destruct (is_of_type_ exa a p S_IFLNK false) as [[]|]; cbn; [reflexivity|exact K|reflexivity].
Qed.
End Strong.
End Ex.

Section Weak2.
Hypothesis W : is_root a = true \/ same_read a b.
Lemma lk_exists_n n : forall p, exists_n n b p = exists_n n a p.
Proof. induction n as [|n IH]; intros p; cbn; [reflexivity|]. apply lk_exists_follow_; assumption. Qed.
Lemma lk_top p : exists_top b p = exists_top a p.
Proof. apply lk_exists_n. Qed.
Lemma look_resolve_path p : resolve_path b p = resolve_path a p.
Proof. apply lk_resolve_path_, lk_top. Qed.
Lemma look_resolve p check : resolve b p check = resolve a p check.
Proof. apply lk_resolve_; [apply lk_top|tauto]. Qed.
Lemma look_raise p o f m : raise_for_sep b p o f m = raise_for_sep a p o f m.
Proof. apply lk_raise_; [apply lk_top|exact W]. Qed.
Lemma look_exists_follow p : exists_ b p false = exists_ a p false.
Proof. apply lk_exists_follow_; [apply lk_top|exact W]. Qed.
Lemma look_type_follow p fl : is_of_type b p fl true = is_of_type a p fl true.
Proof. apply lk_type_follow_; [apply lk_top|exact W]. Qed.
Lemma look_get_object p check : get_object b p check = get_object a p check.
Proof.
  unfold get_object. rewrite lk_original, lk_anp. apply lk_get_norm; [intros t; apply look_resolve|tauto].
Qed.
Lemma look_confirmdir p : confirmdir b p = confirmdir a p.
Proof. unfold confirmdir. rewrite look_resolve. destruct (resolve a p true); cbn; [rewrite lk_hasdir|]; reflexivity. Qed.
End Weak2.
Section Strong2.
Hypothesis R : same_read a b.
Lemma look_lresolve p : lresolve b p = lresolve a p.
Proof. apply lk_lresolve_; [apply lk_top; right; exact R|exact R]. Qed.
Lemma look_follow p f check : resolve_follow b p f check = resolve_follow a p f check.
Proof. unfold resolve_follow, resolve_any. destruct f; [apply look_resolve; right; exact R|apply look_lresolve]. Qed.
Lemma look_type p fl f : is_of_type b p fl f = is_of_type a p fl f.
Proof. apply lk_type_; [apply lk_top; right; exact R|exact R]. Qed.
Lemma look_exists p cl : exists_ b p cl = exists_ a p cl.
Proof. apply lk_exists_; [apply lk_top; right; exact R|exact R]. Qed.
Lemma look_listdir p : listdir b (PStr p) = listdir a (PStr p).
Proof.
  unfold listdir. cbn. rewrite look_resolve_path by (right; exact R). destruct (resolve_path a p) as [q|]; cbn; [|reflexivity].
  rewrite look_confirmdir by (right; exact R). destruct (confirmdir a q) as [d|]; cbn; [|reflexivity].
  pose proof (lk_body d) as K. destruct (o_body (ob b d)); [rewrite K; reflexivity|destruct K as [x ->]; reflexivity].
Qed.
End Strong2.
End Look.
