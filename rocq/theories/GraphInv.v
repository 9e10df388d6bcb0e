(** * The graph invariant and the primitive updates that keep it. *)
From Verif Require Export ExtProofs Wp.

(** ** Counting *)
Lemma cnt_app o a b : cnt o (a ++ b) = cnt o a + cnt o b.
Proof. unfold cnt. rewrite filter_app, app_length. reflexivity. Qed.
Lemma cnt_one o n x : cnt o [(n, x)] = if Nat.eqb x o then 1 else 0.
Proof. unfold cnt. simpl. destruct (Nat.eqb x o); reflexivity. Qed.
Lemma cnt_cons o n x es : cnt o ((n, x) :: es) = (if Nat.eqb x o then 1 else 0) + cnt o es.
Proof. unfold cnt. simpl. destruct (Nat.eqb x o); reflexivity. Qed.
Lemma cnt_del o n x es : assoc n es = Some x ->
  cnt o es = (if Nat.eqb x o then 1 else 0) + cnt o (del_assoc n es).
Proof.
  induction es as [|[k y] es IH]; simpl; [discriminate|].
  destruct (str_eqb n k) eqn:E.
  - intros H; injection H as ->. apply cnt_cons.
  - intros H. rewrite !cnt_cons, (IH H). lia.
Qed.
Lemma cnt_zero o es : (forall n, ~ In (n, o) es) -> cnt o es = 0.
Proof.
  induction es as [|[k y] es IH]; intros H; [reflexivity|]. rewrite cnt_cons, IH.
  - destruct (Nat.eqb_spec y o) as [->|]; [|reflexivity]. destruct (H k); left; reflexivity.
  - intros n Hn. apply (H n). right; exact Hn.
Qed.
Lemma cnt_pos o es n : In (n, o) es -> 0 < cnt o es.
Proof.
  induction es as [|[k y] es IH]; simpl; [tauto|]. rewrite cnt_cons. intros [E|H].
  - injection E as -> ->. rewrite Nat.eqb_refl. lia.
  - specialize (IH H). lia.
Qed.
Lemma length_del {A} n (x : A) es : assoc n es = Some x -> length es = S (length (del_assoc n es)).
Proof.
  induction es as [|[k y] es IH]; simpl; [discriminate|].
  destruct (str_eqb n k); [reflexivity|]. intros H. simpl. rewrite (IH H). reflexivity.
Qed.

Lemma NoDup_app_snoc {A} (l : list A) x : NoDup l -> ~ In x l -> NoDup (l ++ [x]).
Proof.
  induction l as [|y l IH]; simpl; intros Hnd Hni; [constructor; [simpl; tauto|constructor]|].
  inversion Hnd; subst. constructor; [rewrite in_app_iff; simpl; intros [H|[H|[]]]; [contradiction|subst; tauto]|].
  apply IH; tauto.
Qed.

Lemma sumn_ext f g n : (forall k, k < n -> f k = g k) -> sumn f n = sumn g n.
Proof. induction n; simpl; intros H; [reflexivity|]. rewrite IHn, H; auto. Qed.
Lemma sumn_upd f g d n : d < n -> (forall k, k <> d -> f k = g k) -> sumn f n + g d = sumn g n + f d.
Proof.
  induction n; intros Hd H; [lia|]. simpl. destruct (Nat.eq_dec d n) as [->|Hn].
  - rewrite (sumn_ext f g n); [lia|]. intros k Hk. apply H. lia.
  - rewrite (H n) by lia. assert (d < n) by lia. specialize (IHn H0 H). lia.
Qed.
Lemma sumn_zero f n : (forall k, k < n -> f k = 0) -> sumn f n = 0.
Proof. induction n; simpl; intros H; [reflexivity|]. rewrite IHn, H; auto. Qed.
Lemma sumn_pos f n k : k < n -> 0 < f k -> 0 < sumn f n.
Proof.
  induction n; intros Hk Hf; [lia|]. simpl. destruct (Nat.eq_dec k n) as [->|]; [lia|].
  assert (k < n) by lia. specialize (IHn H Hf). lia.
Qed.

(** ** The invariant *)
Record Ginv (s : fs) : Prop := {
  gi_lin : linux_like (f_cfg s);
  gi_cwd : is_abs (sepc s) (f_cwd s) = true;
  gi_next : 2 <= f_next s;
  gi_root : is_dirobj s root_oid = true;
  gi_rootm : is_dirm s root_oid = true;
  gi_rootname : o_name (ob s root_oid) = [sepc s];
  gi_rootpar : o_parent (ob s root_oid) = None;
  gi_null : is_dirobj s devnull_oid = false;
  gi_dirbit : forall o, is_dirobj s o = true -> has_bit (o_mode (ob s o)) S_IFDIR = true;
  gi_new : forall o, f_next s <= o -> is_dirobj s o = false;
  gi_ent : forall d n o, In (n, o) (ents s d) -> o < f_next s /\ o <> root_oid /\ ordinary (sepc s) n;
  gi_nodup : forall d, NoDup (map fst (ents s d));
  gi_par : forall d n o, In (n, o) (ents s d) -> is_dirobj s o = true ->
             o_parent (ob s o) = Some d /\ o_name (ob s o) = n;
  gi_nlink : forall o, o < f_next s ->
     o_nlink (ob s o) = (Z.of_nat (refs s o) +
       (if is_dirobj s o then 1 + Z.of_nat (length (ents s o)) else 0))%Z;
  gi_acyc : forall a names, tree_at s a names = Some a -> names = [];
  gi_ino_le : forall o i, o < f_next s -> o_ino (ob s o) = Some i -> i <= f_ino s;
  gi_ino_inj : forall a b i, a < f_next s -> b < f_next s ->
     o_ino (ob s a) = Some i -> o_ino (ob s b) = Some i -> a = b;
  gi_ino_root : o_ino (ob s root_oid) <> None;
  gi_ino_ent : forall d n o, In (n, o) (ents s d) -> o_ino (ob s o) <> None
}.

Lemma has_ifdir_not_link m : has_bit m S_IFDIR = true -> S_ISLNK m = false.
Proof.
  unfold has_bit, S_ISLNK, S_IFMT. intros H. apply N.eqb_neq. intros E.
  apply negb_true_iff, N.eqb_neq in H. apply H. clear H.
  assert (E2 : N.land (N.land m S_IFMT_mask) S_IFDIR = N.land m S_IFDIR).
  { rewrite <- N.land_assoc. reflexivity. }
  rewrite <- E2, E. reflexivity.
Qed.
Lemma isdir_has_ifdir m : S_ISDIR m = true -> has_bit m S_IFDIR = true.
Proof.
  unfold has_bit, S_ISDIR, S_IFMT. intros H. apply N.eqb_eq in H. apply negb_true_iff, N.eqb_neq. intros E.
  assert (E2 : N.land (N.land m S_IFMT_mask) S_IFDIR = N.land m S_IFDIR).
  { rewrite <- N.land_assoc. reflexivity. }
  rewrite H, E in E2. discriminate E2.
Qed.

Lemma Ginv_good s : Ginv s -> good s.
Proof.
  intros H. constructor; [apply (gi_lin s H)|apply (gi_cwd s H)| |apply (gi_root s H)].
  intros o Ho. apply has_ifdir_not_link, (gi_dirbit s H o Ho).
Qed.

Lemma Ginv_cs s : Ginv s -> c_cs (f_cfg s) = true.
Proof. intros H. apply (ll_cs _ (gi_lin s H)). Qed.
Lemma Ginv_win s : Ginv s -> c_win (f_cfg s) = false.
Proof. intros H. apply (ll_win _ (gi_lin s H)). Qed.
Lemma Ginv_mac s : Ginv s -> c_mac (f_cfg s) = false.
Proof. intros H. apply (ll_mac _ (gi_lin s H)). Qed.

Lemma entry_In s d n o : entry s d n = Some o -> In (n, o) (ents s d).
Proof. apply assoc_In. Qed.
Lemma In_entry s d n o : Ginv s -> In (n, o) (ents s d) -> entry s d n = Some o.
Proof. intros H. apply assoc_NoDup, (gi_nodup s H). Qed.

Lemma dirobj_lt s o : Ginv s -> is_dirobj s o = true -> o < f_next s.
Proof.
  intros H Ho. destruct (Nat.lt_ge_cases o (f_next s)) as [|Hge]; [assumption|].
  rewrite (gi_new s H o Hge) in Ho. discriminate.
Qed.
Lemma entry_lt s d n o : Ginv s -> entry s d n = Some o -> o < f_next s /\ d < f_next s.
Proof.
  intros H E. split; [apply (gi_ent s H d n o (entry_In _ _ _ _ E))|].
  apply dirobj_lt; [exact H|]. apply (entry_dirobj s d n o E).
Qed.
Lemma ents_dirobj s d x : In x (ents s d) -> is_dirobj s d = true.
Proof. unfold ents, is_dirobj. destruct (o_body (ob s d)); simpl; tauto. Qed.
Lemma tree_at_lt s d names o : Ginv s -> d < f_next s -> tree_at s d names = Some o -> o < f_next s.
Proof.
  intros H. revert d; induction names as [|n names IH]; intros d Hd; cbn [tree_at]; [congruence|].
  destruct (entry s d n) as [x|] eqn:E; [|discriminate]. apply IH, (entry_lt s d n x H E).
Qed.
Lemma refs_zero s o : (forall d n, ~ In (n, o) (ents s d)) -> refs s o = 0.
Proof. intros H. apply sumn_zero. intros d _. apply cnt_zero, H. Qed.
Lemma refs_pos s d n o : Ginv s -> In (n, o) (ents s d) -> 0 < refs s o.
Proof.
  intros H Hi. apply (sumn_pos _ _ d); [apply dirobj_lt, ents_dirobj with (1 := Hi); exact H|].
  apply (cnt_pos o _ n Hi).
Qed.

Lemma reach_refl s a : reach s a a.
Proof. exists []; reflexivity. Qed.
Lemma reach_step s a n x b : entry s a n = Some x -> reach s x b -> reach s a b.
Proof. intros E [ns H]. exists (n :: ns). simpl. rewrite E. exact H. Qed.
Lemma reach_trans s a b c : reach s a b -> reach s b c -> reach s a c.
Proof. intros [m H] [n H']. exists (m ++ n). rewrite tree_at_app, H. exact H'. Qed.
Lemma reach_acyc s a b : Ginv s -> reach s a b -> reach s b a -> a = b.
Proof.
  intros H [m Hm] [n Hn]. assert (E : m ++ n = []).
  { apply (gi_acyc s H a). rewrite tree_at_app, Hm. exact Hn. }
  apply app_eq_nil in E. destruct E as [-> _]. simpl in Hm. congruence.
Qed.
Lemma reach_file s a b : is_dirobj s a = false -> reach s a b -> a = b.
Proof.
  intros H [[|n ns] E]; simpl in E; [congruence|].
  destruct (entry s a n) eqn:En; [|discriminate]. rewrite (entry_dirobj _ _ _ _ En) in H. discriminate.
Qed.

(** ** States with the same graph *)
Record gsame (s s' : fs) : Prop := {
  gs_cfg : f_cfg s' = f_cfg s;
  gs_cwd : f_cwd s' = f_cwd s;
  gs_next : f_next s' = f_next s;
  gs_ino : f_ino s' = f_ino s;
  gs_ents : forall o, ents s' o = ents s o;
  gs_dir : forall o, is_dirobj s' o = is_dirobj s o;
  gs_name : forall o, is_dirobj s o = true -> o_name (ob s' o) = o_name (ob s o);
  gs_par : forall o, o_parent (ob s' o) = o_parent (ob s o);
  gs_oino : forall o, o_ino (ob s' o) = o_ino (ob s o);
  gs_nlink : forall o, o_nlink (ob s' o) = o_nlink (ob s o);
  gs_bit : forall o, is_dirobj s o = true -> has_bit (o_mode (ob s o)) S_IFDIR = true ->
             has_bit (o_mode (ob s' o)) S_IFDIR = true;
  gs_root : is_dirm s root_oid = true -> is_dirm s' root_oid = true
}.

Lemma gsame_refl s : gsame s s.
Proof. constructor; auto. Qed.
Lemma gsame_trans a b c : gsame a b -> gsame b c -> gsame a c.
Proof.
  intros H K. constructor; intros.
  - rewrite (gs_cfg _ _ K); apply (gs_cfg _ _ H).
  - rewrite (gs_cwd _ _ K); apply (gs_cwd _ _ H).
  - rewrite (gs_next _ _ K); apply (gs_next _ _ H).
  - rewrite (gs_ino _ _ K); apply (gs_ino _ _ H).
  - rewrite (gs_ents _ _ K); apply (gs_ents _ _ H).
  - rewrite (gs_dir _ _ K); apply (gs_dir _ _ H).
  - rewrite (gs_name _ _ K); [apply (gs_name _ _ H); assumption|]. rewrite (gs_dir _ _ H). assumption.
  - rewrite (gs_par _ _ K); apply (gs_par _ _ H).
  - rewrite (gs_oino _ _ K); apply (gs_oino _ _ H).
  - rewrite (gs_nlink _ _ K); apply (gs_nlink _ _ H).
  - apply (gs_bit _ _ K); [rewrite (gs_dir _ _ H); assumption|apply (gs_bit _ _ H); assumption].
  - apply (gs_root _ _ K), (gs_root _ _ H); assumption.
Qed.

Lemma tree_at_ents s s' : (forall o, ents s' o = ents s o) -> forall d names, tree_at s' d names = tree_at s d names.
Proof.
  intros H d names; revert d; induction names as [|n names IH]; intros d; [reflexivity|].
  cbn [tree_at]. unfold entry. rewrite H. destruct (assoc n (ents s d)); [apply IH|reflexivity].
Qed.
Lemma refs_ents s s' o : (forall o, ents s' o = ents s o) -> f_next s' = f_next s -> refs s' o = refs s o.
Proof. intros H E. unfold refs. rewrite E. apply sumn_ext. intros k _. rewrite H. reflexivity. Qed.

Lemma gsame_Ginv s s' : gsame s s' -> Ginv s -> Ginv s'.
Proof.
  intros G H.
  assert (Es := gs_ents _ _ G). assert (Ed := gs_dir _ _ G).
  constructor; try rewrite (gs_cfg _ _ G); try rewrite (gs_next _ _ G); try rewrite (gs_cwd _ _ G); try rewrite (gs_ino _ _ G).
  - apply (gi_lin s H).
  - apply (gi_cwd s H).
  - apply (gi_next s H).
  - rewrite Ed; apply (gi_root s H).
  - apply (gs_root _ _ G), (gi_rootm s H).
  - rewrite (gs_name _ _ G) by (apply (gi_root s H)). apply (gi_rootname s H).
  - rewrite (gs_par _ _ G). apply (gi_rootpar s H).
  - rewrite Ed; apply (gi_null s H).
  - intros o Ho. rewrite Ed in Ho. apply (gs_bit _ _ G); [exact Ho|apply (gi_dirbit s H), Ho].
  - intros o Ho. rewrite Ed. apply (gi_new s H), Ho.
  - intros d n o. rewrite Es. apply (gi_ent s H).
  - intros d. rewrite Es. apply (gi_nodup s H).
  - intros d n o. rewrite Es, Ed. intros Hi Ho. rewrite (gs_name _ _ G o Ho), (gs_par _ _ G). apply (gi_par s H d n o Hi Ho).
  - intros o Ho. rewrite (gs_nlink _ _ G), (refs_ents s s' o Es (gs_next _ _ G)), Ed, Es. apply (gi_nlink s H o Ho).
  - intros a names. rewrite (tree_at_ents s s' Es). apply (gi_acyc s H).
  - intros o i. rewrite (gs_oino _ _ G). apply (gi_ino_le s H).
  - intros a b i Ha Hb. rewrite !(gs_oino _ _ G). apply (gi_ino_inj s H); assumption.
  - rewrite (gs_oino _ _ G). apply (gi_ino_root s H).
  - intros d n o. rewrite Es, (gs_oino _ _ G). apply (gi_ino_ent s H).
Qed.

(** An update of one object that leaves the graph alone. *)
Record osame (x y : fobj) : Prop := {
  os_name : match o_body x with BDir _ => o_name y = o_name x | BFile _ => True end;
  os_par : o_parent y = o_parent x;
  os_ino : o_ino y = o_ino x;
  os_nlink : o_nlink y = o_nlink x;
  os_body : match o_body x with BDir es => o_body y = BDir es
            | BFile _ => match o_body y with BDir _ => False | BFile _ => True end end;
  os_bit : match o_body x with
           | BDir _ => has_bit (o_mode x) S_IFDIR = true -> has_bit (o_mode y) S_IFDIR = true
           | BFile _ => True end
}.

Lemma ob_mod s o f x : ob (mod_ob s o f) x = if Nat.eqb x o then f (ob s o) else ob s x.
Proof. reflexivity. Qed.
Lemma ob_set_ino s i x : ob (set_ino s i) x = ob s x.
Proof. reflexivity. Qed.
Lemma ob_mod_same s o f : ob (mod_ob s o f) o = f (ob s o).
Proof. rewrite ob_mod, Nat.eqb_refl. reflexivity. Qed.
Lemma ob_mod_other s o f x : x <> o -> ob (mod_ob s o f) x = ob s x.
Proof. intros H. rewrite ob_mod. apply Nat.eqb_neq in H. rewrite H. reflexivity. Qed.

Lemma gsame_mod s o f : osame (ob s o) (f (ob s o)) ->
  (o = root_oid -> S_ISDIR (o_mode (ob s o)) = true -> S_ISDIR (o_mode (f (ob s o))) = true) ->
  gsame s (mod_ob s o f).
Proof.
  intros Ho Hr. destruct Ho as [H1 H2 H3 H4 H5 H6].
  assert (Hrt : is_dirm s root_oid = true -> is_dirm (mod_ob s o f) root_oid = true).
  { unfold is_dirm. rewrite ob_mod. destruct (Nat.eqb_spec root_oid o) as [E|E]; [|auto]. subst o. apply Hr. reflexivity. }
  constructor; try reflexivity; try exact Hrt; intros x; unfold ents, is_dirobj, is_dirm; rewrite ob_mod;
    destruct (Nat.eqb_spec x o) as [->|Hn]; auto.
  - destruct (o_body (ob s o)); [rewrite H5; reflexivity|]. destruct (o_body (f (ob s o))); [destruct H5|reflexivity].
  - destruct (o_body (ob s o)); [rewrite H5; reflexivity|]. destruct (o_body (f (ob s o))); [destruct H5|reflexivity].
  - destruct (o_body (ob s o)); [intros _; exact H1|discriminate].
  - destruct (o_body (ob s o)); [intros _; exact H6|discriminate].
Qed.

(** ** Allocation *)
Lemma ents_alloc s nm mode b o : b = BDir [] \/ (exists d, b = BFile d) -> (f_next s <= o -> is_dirobj s o = false) ->
  ents (snd (alloc nm mode b s)) o = ents s o.
Proof.
  intros Hb Hn. unfold ents, ob. cbn [alloc snd f_heap set_next set_heap]. unfold upd.
  destruct (Nat.eqb_spec o (f_next s)) as [->|]; [|reflexivity].
  specialize (Hn (le_n _)). unfold is_dirobj, ob in Hn. destruct (o_body (f_heap s (f_next s))); [discriminate|].
  destruct Hb as [->|[d ->]]; reflexivity.
Qed.

Lemma Ginv_alloc s nm mode b :
  Ginv s -> b = BDir [] \/ (exists d, b = BFile d) -> (b = BDir [] -> has_bit mode S_IFDIR = true) ->
  Ginv (snd (alloc nm mode b s)).
Proof.
  intros H Hb Hm. set (s' := snd (alloc nm mode b s)).
  assert (Es : forall o, ents s' o = ents s o) by (intros o; apply ents_alloc; [exact Hb|apply (gi_new s H)]).
  assert (Eo : forall o, o <> f_next s -> ob s' o = ob s o).
  { intros o Ho. unfold s', ob. cbn [alloc snd f_heap set_next set_heap]. unfold upd. apply Nat.eqb_neq in Ho. rewrite Ho. reflexivity. }
  assert (En : ob s' (f_next s) = fresh_obj s nm mode b).
  { unfold s', ob. cbn [alloc snd f_heap set_next set_heap]. unfold upd. rewrite Nat.eqb_refl. reflexivity. }
  assert (Er : forall o, refs s' o = refs s o).
  { intros o. unfold refs. change (f_next s') with (S (f_next s)). cbn [sumn].
    rewrite (sumn_ext _ (fun d => cnt o (ents s d))) by (intros; rewrite Es; reflexivity).
    rewrite Es. unfold ents. pose proof (gi_new s H _ (le_n _)) as Hx. unfold is_dirobj in Hx.
    destruct (o_body (ob s (f_next s))); [discriminate|]. cbn. lia. }
  assert (Hne : forall o, o < f_next s -> o <> f_next s) by (intros; lia).
  pose proof (gi_next s H) as H2. unfold root_oid, devnull_oid in *.
  constructor; change (f_cfg s') with (f_cfg s); change (f_cwd s') with (f_cwd s);
    change (f_next s') with (S (f_next s)); change (f_ino s') with (f_ino s).
  - apply (gi_lin s H).
  - apply (gi_cwd s H).
  - lia.
  - unfold is_dirobj, root_oid. rewrite Eo by lia. apply (gi_root s H).
  - unfold is_dirm, root_oid. rewrite Eo by lia. apply (gi_rootm s H).
  - unfold root_oid. rewrite Eo by lia. apply (gi_rootname s H).
  - unfold root_oid. rewrite Eo by lia. apply (gi_rootpar s H).
  - unfold is_dirobj, devnull_oid. rewrite Eo by lia. apply (gi_null s H).
  - intros o. unfold is_dirobj. destruct (Nat.eq_dec o (f_next s)) as [->|Ho].
    + rewrite En. cbn. destruct Hb as [->|[d ->]]; [intros _; apply Hm; reflexivity|discriminate].
    + rewrite Eo by exact Ho. apply (gi_dirbit s H).
  - intros o Ho. unfold is_dirobj. rewrite Eo by lia. apply (gi_new s H). lia.
  - intros d n o. rewrite Es. intros Hi. destruct (gi_ent s H d n o Hi) as (A & B & C). repeat split; try assumption; try lia; apply C.
  - intros d. rewrite Es. apply (gi_nodup s H).
  - intros d n o. rewrite Es. intros Hi. destruct (gi_ent s H d n o Hi) as (A & _ & _).
    unfold is_dirobj. rewrite Eo by lia. apply (gi_par s H d n o Hi).
  - intros o Ho. rewrite Er. unfold is_dirobj. rewrite Es. destruct (Nat.eq_dec o (f_next s)) as [->|Hn].
    + rewrite En. cbn [fresh_obj o_nlink o_body].
      rewrite refs_zero by (intros d n Hi; destruct (gi_ent s H _ _ _ Hi) as (A & _); lia).
      destruct Hb as [->|[d ->]]; [|reflexivity].
      pose proof (gi_new s H _ (le_n _)) as Hx. unfold is_dirobj, ents in *. destruct (o_body (ob s (f_next s))); [discriminate|reflexivity].
    + rewrite Eo by exact Hn. apply (gi_nlink s H). lia.
  - intros a names. rewrite (tree_at_ents s s' Es). apply (gi_acyc s H).
  - intros o i Ho. destruct (Nat.eq_dec o (f_next s)) as [->|Hn]; [rewrite En; discriminate|].
    rewrite Eo by exact Hn. apply (gi_ino_le s H). lia.
  - intros a c i Ha Hc. destruct (Nat.eq_dec a (f_next s)) as [->|Hna]; [rewrite En; discriminate|].
    destruct (Nat.eq_dec c (f_next s)) as [->|Hnc]; [rewrite En; discriminate|].
    rewrite !Eo by assumption. apply (gi_ino_inj s H); lia.
  - unfold root_oid. rewrite Eo by lia. apply (gi_ino_root s H).
  - intros d n o. rewrite Es. intros Hi. destruct (gi_ent s H d n o Hi) as (A & _ & _). rewrite Eo by lia.
    apply (gi_ino_ent s H d n o Hi).
Qed.

(** ** Adding an entry *)

(** What [link_obj d o] does. *)
Record linked (s s' : fs) (d o : oid) (nm : str) : Prop := {
  ln_rest : s' = set_ino (set_heap s (f_heap s')) (f_ino s');
  ln_d : ob s' d = wo_nlink (wo_body (ob s d) (BDir (ents s d ++ [(nm, o)]))) (o_nlink (ob s d) + 1);
  ln_o : exists i, ob s' o = wo_dev (wo_nlink (wo_ino (wo_parent (ob s o) (Some d)) (Some i)) (o_nlink (ob s o) + 1)) (o_dev (ob s d)) /\
         match o_ino (ob s o) with
         | Some j => i = j /\ f_ino s' = f_ino s
         | None => i = S (f_ino s) /\ f_ino s' = S (f_ino s)
         end;
  ln_other : forall x, x <> d -> x <> o -> ob s' x = ob s x
}.

Lemma link_obj_spec s d o : d <> o -> is_dirobj s d = true ->
  exists s', link_obj d o s = (Ok tt, s') /\ linked s s' d o (o_name (ob s o)).
Proof.
  intros Hn Hd. assert (E1 : Nat.eqb d o = false) by (apply Nat.eqb_neq; exact Hn).
  assert (E2 : Nat.eqb o d = false) by (apply Nat.eqb_neq; congruence).
  unfold link_obj, bind, gets, mod_obj, modify, ret.
  unfold is_dirobj in Hd. destruct (o_body (ob s d)) as [es|] eqn:Eb; [|discriminate].
  destruct (o_ino (ob s o)) as [i|] eqn:Ei.
  - eexists. rewrite !ob_mod, !Nat.eqb_refl, ?E1, ?E2. cbn [o_ino wo_parent]. rewrite Ei.
    split; [reflexivity|].
    constructor.
    + reflexivity.
    + rewrite !ob_mod, !Nat.eqb_refl, ?E1, ?E2. unfold ents. rewrite Eb. reflexivity.
    + exists i. rewrite !ob_mod, !Nat.eqb_refl, ?E1, ?E2. rewrite Ei. split; [|split; reflexivity].
      rewrite Eb. destruct (ob s o); cbn in *. rewrite Ei. reflexivity.
    + intros x Hx Hy. apply Nat.eqb_neq in Hx, Hy. rewrite !ob_mod, ?Hx, ?Hy. reflexivity.
  - eexists. rewrite !ob_mod, !Nat.eqb_refl, ?E1, ?E2. cbn [o_ino wo_parent]. rewrite Ei.
    split; [reflexivity|].
    constructor.
    + reflexivity.
    + repeat rewrite ?ob_set_ino, ?ob_mod, ?Nat.eqb_refl, ?E1, ?E2. unfold ents. rewrite Eb. reflexivity.
    + exists (S (f_ino s)). rewrite Ei. repeat rewrite ?ob_set_ino, ?ob_mod, ?Nat.eqb_refl, ?E1, ?E2.
      split; [|split; reflexivity]. rewrite Eb. reflexivity.
    + intros x Hx Hy. apply Nat.eqb_neq in Hx, Hy. repeat rewrite ?ob_set_ino, ?ob_mod, ?Hx, ?Hy. reflexivity.
Qed.

Section Linked.
Variables (s s' : fs) (d o : oid) (nm : str).
Hypothesis Hn : d <> o.
Hypothesis Hd : is_dirobj s d = true.
Hypothesis HL : linked s s' d o nm.

Lemma linked_cfg : f_cfg s' = f_cfg s. Proof. rewrite (ln_rest _ _ _ _ _ HL). reflexivity. Qed.
Lemma linked_cwd : f_cwd s' = f_cwd s. Proof. rewrite (ln_rest _ _ _ _ _ HL). reflexivity. Qed.
Lemma linked_next : f_next s' = f_next s. Proof. rewrite (ln_rest _ _ _ _ _ HL). reflexivity. Qed.
Lemma linked_uid : f_uid s' = f_uid s. Proof. rewrite (ln_rest _ _ _ _ _ HL). reflexivity. Qed.

Lemma linked_dirobj x : is_dirobj s' x = is_dirobj s x.
Proof.
  unfold is_dirobj. destruct (Nat.eq_dec x d) as [->|Hxd].
  - rewrite (ln_d _ _ _ _ _ HL). unfold is_dirobj in Hd. destruct (o_body (ob s d)); [reflexivity|discriminate].
  - destruct (Nat.eq_dec x o) as [->|Hxo].
    + destruct (ln_o _ _ _ _ _ HL) as (i & -> & _). reflexivity.
    + rewrite (ln_other _ _ _ _ _ HL x Hxd Hxo). reflexivity.
Qed.
Lemma linked_ents x : ents s' x = if Nat.eqb x d then ents s d ++ [(nm, o)] else ents s x.
Proof.
  destruct (Nat.eqb_spec x d) as [->|Hxd].
  - unfold ents at 1. rewrite (ln_d _ _ _ _ _ HL). reflexivity.
  - destruct (Nat.eq_dec x o) as [->|Hxo].
    + unfold ents. destruct (ln_o _ _ _ _ _ HL) as (i & -> & _). reflexivity.
    + unfold ents. rewrite (ln_other _ _ _ _ _ HL x Hxd Hxo). reflexivity.
Qed.
Lemma linked_mode x : o_mode (ob s' x) = o_mode (ob s x).
Proof.
  destruct (Nat.eq_dec x d) as [->|Hxd]; [rewrite (ln_d _ _ _ _ _ HL); reflexivity|].
  destruct (Nat.eq_dec x o) as [->|Hxo].
  - destruct (ln_o _ _ _ _ _ HL) as (i & -> & _). reflexivity.
  - rewrite (ln_other _ _ _ _ _ HL x Hxd Hxo). reflexivity.
Qed.
Lemma linked_name x : o_name (ob s' x) = o_name (ob s x).
Proof.
  destruct (Nat.eq_dec x d) as [->|Hxd]; [rewrite (ln_d _ _ _ _ _ HL); reflexivity|].
  destruct (Nat.eq_dec x o) as [->|Hxo].
  - destruct (ln_o _ _ _ _ _ HL) as (i & -> & _). reflexivity.
  - rewrite (ln_other _ _ _ _ _ HL x Hxd Hxo). reflexivity.
Qed.
Lemma linked_body x : x <> d -> o_body (ob s' x) = o_body (ob s x).
Proof.
  intros Hxd. destruct (Nat.eq_dec x o) as [->|Hxo].
  - destruct (ln_o _ _ _ _ _ HL) as (i & -> & _). reflexivity.
  - rewrite (ln_other _ _ _ _ _ HL x Hxd Hxo). reflexivity.
Qed.
Lemma linked_parent x : o_parent (ob s' x) = if Nat.eqb x o then Some d else o_parent (ob s x).
Proof.
  destruct (Nat.eqb_spec x o) as [->|Hxo].
  - destruct (ln_o _ _ _ _ _ HL) as (i & -> & _). reflexivity.
  - destruct (Nat.eq_dec x d) as [->|Hxd]; [rewrite (ln_d _ _ _ _ _ HL); reflexivity|].
    rewrite (ln_other _ _ _ _ _ HL x Hxd Hxo). reflexivity.
Qed.
Lemma linked_ino x : x <> o -> o_ino (ob s' x) = o_ino (ob s x).
Proof.
  intros Hxo. destruct (Nat.eq_dec x d) as [->|Hxd]; [rewrite (ln_d _ _ _ _ _ HL); reflexivity|].
  rewrite (ln_other _ _ _ _ _ HL x Hxd Hxo). reflexivity.
Qed.
Lemma linked_nlink x : o_nlink (ob s' x) =
  (o_nlink (ob s x) + (if Nat.eqb x d then 1 else 0) + (if Nat.eqb x o then 1 else 0))%Z.
Proof.
  destruct (Nat.eqb_spec x d) as [->|Hxd].
  - rewrite (ln_d _ _ _ _ _ HL). apply Nat.eqb_neq in Hn. rewrite Hn. cbn. lia.
  - destruct (Nat.eqb_spec x o) as [->|Hxo].
    + destruct (ln_o _ _ _ _ _ HL) as (i & -> & _). cbn. lia.
    + rewrite (ln_other _ _ _ _ _ HL x Hxd Hxo). lia.
Qed.
Lemma linked_entry_old x n y : entry s x n = Some y -> entry s' x n = Some y.
Proof.
  unfold entry. rewrite linked_ents. destruct (Nat.eqb_spec x d) as [->|]; [|auto].
  intros H. rewrite assoc_app, H. reflexivity.
Qed.
Lemma linked_entry_inv x n y : entry s' x n = Some y -> entry s x n = Some y \/ (x = d /\ n = nm /\ y = o).
Proof.
  unfold entry. rewrite linked_ents. destruct (Nat.eqb_spec x d) as [->|]; [|auto].
  rewrite assoc_app. destruct (assoc n (ents s d)); [auto|]. simpl.
  destruct (str_eqb_spec n nm) as [->|]; [|discriminate]. intros H; injection H as <-. auto.
Qed.
Lemma linked_walk a names b : tree_at s' a names = Some b ->
  tree_at s a names = Some b \/ (reach s a d /\ reach s o b).
Proof.
  revert a; induction names as [|n names IH]; intros a; cbn [tree_at]; [auto|].
  destruct (entry s' a n) as [x|] eqn:E; [|discriminate]. intros H.
  apply linked_entry_inv in E. destruct E as [E|(-> & -> & ->)].
  - rewrite E. destruct (IH x H) as [K|[K1 K2]]; [left; exact K|right].
    split; [apply (reach_step s a n x d E K1)|exact K2].
  - right. split; [apply reach_refl|]. destruct (IH o H) as [K|[_ K]]; [exists names; exact K|exact K].
Qed.

Lemma Ginv_linked : Ginv s -> o < f_next s -> o <> root_oid -> ordinary (sepc s) nm -> nm = o_name (ob s o) ->
  ~ In nm (map fst (ents s d)) -> (is_dirobj s o = true -> refs s o = 0) -> ~ reach s o d -> Ginv s'.
Proof.
  intros H Ho Hr Hnm Enm Hni Href Hac.
  assert (Hdlt : d < f_next s) by (apply dirobj_lt; assumption).
  destruct (ln_o _ _ _ _ _ HL) as (i & Eoo & Ei).
  assert (Hil : f_ino s <= f_ino s').
  { destruct (o_ino (ob s o)); destruct Ei as [_ ->]; lia. }
  assert (Hrefs : forall x, refs s' x = refs s x + (if Nat.eqb o x then 1 else 0)).
  { intros x. unfold refs. rewrite linked_next.
    pose proof (sumn_upd (fun k => cnt x (ents s' k)) (fun k => cnt x (ents s k)) d (f_next s) Hdlt) as Hs.
    cbv beta in Hs. assert (Hk : forall k, k <> d -> cnt x (ents s' k) = cnt x (ents s k)).
    { intros k Hk. rewrite linked_ents. apply Nat.eqb_neq in Hk. rewrite Hk. reflexivity. }
    specialize (Hs Hk). rewrite (linked_ents d), Nat.eqb_refl, cnt_app, cnt_one in Hs. lia. }
  constructor.
  - rewrite linked_cfg. apply (gi_lin s H).
  - rewrite linked_cfg, linked_cwd. apply (gi_cwd s H).
  - rewrite linked_next. apply (gi_next s H).
  - rewrite linked_dirobj. apply (gi_root s H).
  - unfold is_dirm. rewrite linked_mode. apply (gi_rootm s H).
  - rewrite linked_name, linked_cfg. apply (gi_rootname s H).
  - rewrite linked_parent. destruct (Nat.eqb_spec root_oid o); [congruence|apply (gi_rootpar s H)].
  - rewrite linked_dirobj. apply (gi_null s H).
  - intros x. rewrite linked_dirobj, linked_mode. apply (gi_dirbit s H).
  - intros x. rewrite linked_next, linked_dirobj. apply (gi_new s H).
  - intros e n x. rewrite linked_ents, linked_next, linked_cfg. destruct (Nat.eqb_spec e d) as [->|]; [|apply (gi_ent s H)].
    rewrite in_app_iff. intros [Hi|[E|[]]]; [apply (gi_ent s H d n x Hi)|]. injection E as <- <-.
    repeat split; try assumption; apply Hnm.
  - intros e. rewrite linked_ents. destruct (Nat.eqb_spec e d) as [->|]; [|apply (gi_nodup s H)].
    rewrite map_app. simpl. apply NoDup_app_snoc; [apply (gi_nodup s H)|exact Hni].
  - intros e n x. rewrite linked_ents, linked_dirobj, linked_parent, linked_name. intros Hi Hx.
    assert (Hold : forall e' n', In (n', x) (ents s e') ->
      (if Nat.eqb x o then Some d else o_parent (ob s x)) = Some e' /\ o_name (ob s x) = n').
    { intros e' n' Hi'. destruct (Nat.eqb_spec x o) as [->|].
      - exfalso. pose proof (refs_pos s e' n' o H Hi'). rewrite (Href Hx) in H0. lia.
      - apply (gi_par s H e' n' x Hi' Hx). }
    destruct (Nat.eqb_spec e d) as [->|]; [|apply Hold, Hi].
    apply in_app_iff in Hi. destruct Hi as [Hi|[E|[]]]; [apply Hold, Hi|]. injection E as <- <-.
    rewrite Nat.eqb_refl. split; [reflexivity|symmetry; exact Enm].
  - intros x. rewrite linked_next, linked_nlink, Hrefs, linked_dirobj, linked_ents. intros Hx.
    rewrite (gi_nlink s H x Hx). rewrite (Nat.eqb_sym o x). destruct (Nat.eqb_spec x d) as [->|].
    + apply Nat.eqb_neq in Hn. rewrite Hn, Hd, app_length. cbn [length]. lia.
    + destruct (Nat.eqb x o); destruct (is_dirobj s x); lia.
  - intros a names Ha. apply linked_walk in Ha. destruct Ha as [Ha|[Ha Hb]]; [apply (gi_acyc s H a), Ha|].
    destruct Hac. apply (reach_trans s o a d Hb Ha).
  - intros x j. rewrite linked_next. intros Hx. destruct (Nat.eq_dec x o) as [->|Hxo].
    + rewrite Eoo. cbn. intros E; injection E as <-. destruct (o_ino (ob s o)) as [k|] eqn:Ek.
      * destruct Ei as [-> ->]. apply (gi_ino_le s H o k Hx Ek).
      * destruct Ei as [-> ->]. lia.
    + rewrite linked_ino by exact Hxo. intros E. pose proof (gi_ino_le s H x j Hx E). lia.
  - assert (Hu : forall x j, x < f_next s -> x <> o -> o_ino (ob s x) = Some j -> j = i -> False).
    { intros x j Hx Hxo Ej ->. destruct (o_ino (ob s o)) as [k|] eqn:Ek.
      - destruct Ei as [-> _]. apply Hxo, (gi_ino_inj s H x o k); assumption.
      - destruct Ei as [-> _]. pose proof (gi_ino_le s H x _ Hx Ej). lia. }
    intros a b j. rewrite linked_next. intros Ha Hb.
    destruct (Nat.eq_dec a o) as [->|Hao]; destruct (Nat.eq_dec b o) as [->|Hbo]; [reflexivity| | |].
    + rewrite Eoo, linked_ino by exact Hbo. cbn. intros E1 E2. injection E1 as <-. destruct (Hu b i Hb Hbo E2 eq_refl).
    + rewrite Eoo, linked_ino by exact Hao. cbn. intros E1 E2. injection E2 as <-. destruct (Hu a i Ha Hao E1 eq_refl).
    + rewrite !linked_ino by assumption. apply (gi_ino_inj s H); assumption.
  - rewrite linked_ino by congruence. apply (gi_ino_root s H).
  - intros e n x. destruct (Nat.eq_dec x o) as [->|Hxo]; [intros _; rewrite Eoo; discriminate|].
    rewrite linked_ino by exact Hxo. rewrite linked_ents. destruct (Nat.eqb_spec e d) as [->|]; [|apply (gi_ino_ent s H)].
    rewrite in_app_iff. intros [Hi|[E|[]]]; [apply (gi_ino_ent s H d n x Hi)|congruence].
Qed.
End Linked.

(** ** Removing an entry *)
Record unlinked (s s' : fs) (d e : oid) (nm : str) : Prop := {
  un_rest : s' = set_heap s (f_heap s');
  un_ob : forall x, ob s' x =
    let y := ob s x in
    let y := if Nat.eqb x d then wo_nlink y (o_nlink y - 1) else y in
    let y := if Nat.eqb x e then wo_nlink y (o_nlink y - 1) else y in
    if Nat.eqb x d then wo_body y (BDir (del_assoc nm (ents s d))) else y
}.

Lemma unlink_obj_spec s d e nm : Ginv s -> entry s d nm = Some e ->
  exists s', unlink_obj d e nm s = (Ok tt, s') /\ unlinked s s' d e nm.
Proof.
  intros H He. assert (Hd := entry_dirobj _ _ _ _ He).
  assert (Hne : d <> e).
  { intros ->. assert (E : [nm] = []) by (apply (gi_acyc s H e); simpl; rewrite He; reflexivity). discriminate. }
  assert (E2 : Nat.eqb e d = false) by (apply Nat.eqb_neq; congruence).
  assert (E1 : Nat.eqb d e = false) by (apply Nat.eqb_neq; congruence).
  destruct (entry_lt s d nm e H He) as [Hlt _].
  pose proof (gi_nlink s H e Hlt) as Hnl. pose proof (refs_pos s d nm e H (entry_In _ _ _ _ He)) as Hp.
  unfold unlink_obj, bind, gets, mod_obj, modify, ret, raise.
  repeat rewrite ?ob_mod, ?Nat.eqb_refl, ?E1, ?E2.
  destruct (Z.ltb_spec (o_nlink (wo_nlink (ob s e) (o_nlink (ob s e) - 1))) 0) as [Hlt0|Hge].
  { exfalso. cbn in Hlt0. destruct (is_dirobj s e); lia. }
  eexists. split; [reflexivity|]. constructor; [reflexivity|].
  intros x. repeat rewrite ?ob_mod, ?Nat.eqb_refl, ?E1, ?E2.
  destruct (Nat.eqb_spec x d) as [->|].
  - rewrite ?E1. cbn [o_body wo_nlink]. unfold is_dirobj, ents in *. destruct (o_body (ob s d)); [reflexivity|discriminate].
  - destruct (Nat.eqb_spec x e) as [->|]; reflexivity.
Qed.

Section Unlinked.
Variables (s s' : fs) (d e : oid) (nm : str).
Hypothesis H : Ginv s.
Hypothesis He : entry s d nm = Some e.
Hypothesis HU : unlinked s s' d e nm.

Lemma unl_dir : is_dirobj s d = true. Proof. exact (entry_dirobj _ _ _ _ He). Qed.

Lemma unlinked_cfg : f_cfg s' = f_cfg s. Proof. rewrite (un_rest _ _ _ _ _ HU). reflexivity. Qed.
Lemma unlinked_cwd : f_cwd s' = f_cwd s. Proof. rewrite (un_rest _ _ _ _ _ HU). reflexivity. Qed.
Lemma unlinked_next : f_next s' = f_next s. Proof. rewrite (un_rest _ _ _ _ _ HU). reflexivity. Qed.
Lemma unlinked_ino : f_ino s' = f_ino s. Proof. rewrite (un_rest _ _ _ _ _ HU). reflexivity. Qed.
Lemma unlinked_dirobj x : is_dirobj s' x = is_dirobj s x.
Proof.
  unfold is_dirobj. rewrite (un_ob _ _ _ _ _ HU). cbv zeta. destruct (Nat.eqb_spec x d) as [->|].
  - cbn [wo_body o_body]. pose proof unl_dir as Hd. unfold is_dirobj in Hd. destruct (o_body (ob s d)); [reflexivity|discriminate].
  - destruct (Nat.eqb x e); reflexivity.
Qed.
Lemma unlinked_ents x : ents s' x = if Nat.eqb x d then del_assoc nm (ents s d) else ents s x.
Proof.
  unfold ents at 1. rewrite (un_ob _ _ _ _ _ HU). cbv zeta. destruct (Nat.eqb_spec x d) as [->|]; [reflexivity|].
  unfold ents. destruct (Nat.eqb x e); reflexivity.
Qed.
Lemma unlinked_attr {A} (f : fobj -> A) x :
  (forall y z, f (wo_nlink y z) = f y) -> (forall y z, f (wo_body y z) = f y) -> f (ob s' x) = f (ob s x).
Proof.
  intros H1 H2. rewrite (un_ob _ _ _ _ _ HU). cbv zeta.
  destruct (Nat.eqb x d); destruct (Nat.eqb x e); rewrite ?H1, ?H2, ?H1; reflexivity.
Qed.
Lemma unlinked_nlink x : o_nlink (ob s' x) =
  (o_nlink (ob s x) - (if Nat.eqb x d then 1 else 0) - (if Nat.eqb x e then 1 else 0))%Z.
Proof.
  rewrite (un_ob _ _ _ _ _ HU). cbv zeta.
  destruct (Nat.eqb x d); destruct (Nat.eqb x e); cbn [o_nlink wo_body wo_nlink]; lia.
Qed.
Lemma unlinked_entry x n : entry s' x n = if Nat.eqb x d && str_eqb n nm then None else entry s x n.
Proof.
  unfold entry. rewrite unlinked_ents. destruct (Nat.eqb_spec x d) as [->|]; [|reflexivity]. cbn [andb].
  destruct (str_eqb_spec n nm) as [->|Hn].
  - apply assoc_del_same, (gi_nodup s H).
  - apply assoc_del_other, Hn.
Qed.
Lemma unlinked_entry_inv x n y : entry s' x n = Some y -> entry s x n = Some y.
Proof. rewrite unlinked_entry. destruct (Nat.eqb x d && str_eqb n nm); [discriminate|auto]. Qed.
Lemma unlinked_in x n y : In (n, y) (ents s' x) -> In (n, y) (ents s x).
Proof. rewrite unlinked_ents. destruct (Nat.eqb_spec x d) as [->|]; [apply in_del_assoc|auto]. Qed.
Lemma unlinked_walk a names b : tree_at s' a names = Some b -> tree_at s a names = Some b.
Proof.
  revert a; induction names as [|n names IH]; intros a; cbn [tree_at]; [auto|].
  destruct (entry s' a n) as [x|] eqn:E; [|discriminate]. rewrite (unlinked_entry_inv _ _ _ E). apply IH.
Qed.
Lemma unlinked_refs x : refs s x = refs s' x + (if Nat.eqb e x then 1 else 0).
Proof.
  unfold refs. rewrite unlinked_next. pose proof unl_dir as Hd. assert (Hdlt : d < f_next s) by (apply dirobj_lt; assumption).
  pose proof (sumn_upd (fun k => cnt x (ents s' k)) (fun k => cnt x (ents s k)) d (f_next s) Hdlt) as Hs. cbv beta in Hs.
  assert (Hk : forall k, k <> d -> cnt x (ents s' k) = cnt x (ents s k)).
  { intros k Hk. rewrite unlinked_ents. apply Nat.eqb_neq in Hk. rewrite Hk. reflexivity. }
  specialize (Hs Hk). rewrite (unlinked_ents d), Nat.eqb_refl in Hs.
  rewrite (cnt_del x nm e (ents s d) He) in Hs. lia.
Qed.

Lemma Ginv_unlinked : Ginv s'.
Proof.
  constructor.
  - rewrite unlinked_cfg. apply (gi_lin s H).
  - rewrite unlinked_cfg, unlinked_cwd. apply (gi_cwd s H).
  - rewrite unlinked_next. apply (gi_next s H).
  - rewrite unlinked_dirobj. apply (gi_root s H).
  - unfold is_dirm. rewrite (unlinked_attr o_mode) by reflexivity. apply (gi_rootm s H).
  - rewrite (unlinked_attr o_name) by reflexivity. rewrite unlinked_cfg. apply (gi_rootname s H).
  - rewrite (unlinked_attr o_parent) by reflexivity. apply (gi_rootpar s H).
  - rewrite unlinked_dirobj. apply (gi_null s H).
  - intros x. rewrite unlinked_dirobj, (unlinked_attr o_mode) by reflexivity. apply (gi_dirbit s H).
  - intros x. rewrite unlinked_next, unlinked_dirobj. apply (gi_new s H).
  - intros x n y Hi. rewrite unlinked_next, unlinked_cfg. apply (gi_ent s H x n y), unlinked_in, Hi.
  - intros x. rewrite unlinked_ents. destruct (Nat.eqb x d); [apply NoDup_del_assoc|]; apply (gi_nodup s H).
  - intros x n y Hi. rewrite unlinked_dirobj, (unlinked_attr o_parent), (unlinked_attr o_name) by reflexivity.
    apply (gi_par s H), unlinked_in, Hi.
  - intros x Hx. rewrite unlinked_next in Hx. rewrite unlinked_nlink, unlinked_dirobj, unlinked_ents.
    pose proof (unlinked_refs x) as Hr. rewrite (gi_nlink s H x Hx). rewrite (Nat.eqb_sym e x) in Hr.
    pose proof unl_dir as Hd. pose proof (length_del nm e (ents s d) He) as Hl.
    destruct (Nat.eqb_spec x d) as [E|].
    + subst x. rewrite Hd. destruct (Nat.eqb d e); lia.
    + destruct (Nat.eqb x e); destruct (is_dirobj s x); lia.
  - intros a names Ha. apply (gi_acyc s H a), unlinked_walk, Ha.
  - intros x i. rewrite unlinked_next, unlinked_ino, (unlinked_attr o_ino) by reflexivity. apply (gi_ino_le s H).
  - intros a b i. rewrite unlinked_next, !(unlinked_attr o_ino) by reflexivity. apply (gi_ino_inj s H).
  - rewrite (unlinked_attr o_ino) by reflexivity. apply (gi_ino_root s H).
  - intros x n y Hi. rewrite (unlinked_attr o_ino) by reflexivity. apply (gi_ino_ent s H x n y), unlinked_in, Hi.
Qed.
End Unlinked.
