(** * C83: shutil.rmtree *)
From Verif Require Export RmtreeModel.
From Verif Require Import FsSpec PathProofs PathProofs2 ResProofs ResProofs2 GraphInv ResThm OpsThm OpsThm5 OpsThm6 MountThm TreeThm GraphIo IoThm WalkThm FdThm PropFd PropTree PropOps IoSess PropRmdirs PropDirFd.
From Coq Require Import List Bool ZArith Lia.
Import ListNotations.
Open Scope string_scope.
Open Scope list_scope.

(** ** Specification *)
Definition same_place (s s' : fs) : Prop := f_cfg s' = f_cfg s /\ f_cwd s' = f_cwd s /\ f_uid s' = f_uid s.
(** [s'] is [s] with some entries taken away, all of them among [K]; what was
    taken away is no directory with entries; names, modes and the data of files,
    and the current directory, are as before *)
Record trimmed (K : oid -> str -> Prop) (s s' : fs) : Prop := {
  tm_ent : forall y m, entry s' y m = entry s y m \/ (K y m /\ entry s' y m = None);
  tm_gone : forall y m z, entry s y m = Some z -> entry s' y m = None -> ents s' z = [];
  tm_kind : forall x, o_mode (ob s' x) = o_mode (ob s x) /\ is_dirobj s' x = is_dirobj s x /\ o_name (ob s' x) = o_name (ob s x);
  tm_data : forall x, is_dirobj s x = false -> o_body (ob s' x) = o_body (ob s x);
  tm_place : same_place s s'
}.
Lemma tm_cfg K s s' : trimmed K s s' -> f_cfg s' = f_cfg s.
Proof. intros T. apply (tm_place _ _ _ T). Qed.
(** open descriptors stay open, and no others are open afterwards *)
Definition fds_kept (s s' : fs) : Prop :=
  (forall fd l, slot s fd = Some (Some l) -> slot s' fd = Some (Some l) /\ forall w, In w l -> wstat (wr s' w) = wstat (wr s w)) /\
  forall fd, fd_used s' fd -> fd_used s fd.

Lemma entry_ents s s' : (forall y, ents s' y = ents s y) -> forall y m, entry s' y m = entry s y m.
Proof. intros H y m. unfold entry. rewrite H. reflexivity. Qed.
Lemma no_entry s y : (forall m, entry s y m = None) -> ents s y = [].
Proof.
  intros H. unfold entry in H. destruct (ents s y) as [|[k o] l] eqn:E; [reflexivity|]. specialize (H k). cbn in H. rewrite str_eqb_refl in H. discriminate.
Qed.
Lemma tm_empty K s s' y : trimmed K s s' -> ents s y = [] -> ents s' y = [].
Proof.
  intros T E. apply no_entry. intros m. destruct (tm_ent _ _ _ T y m) as [H|[_ H]]; [|exact H]. rewrite H. unfold entry. rewrite E. reflexivity.
Qed.
Lemma entry_some s d n o : In (n, o) (ents s d) -> entry s d n <> None.
Proof.
  unfold entry. induction (ents s d) as [|[k z] l IH]; intros H; [destruct H|]. cbn [assoc]. destruct (str_eqb n k) eqn:E; [discriminate|].
  destruct H as [[= -> ->]|H]; [rewrite str_eqb_refl in E; discriminate|apply IH, H].
Qed.
Lemma trimmed_refl K s : trimmed K s s.
Proof. constructor; auto; [intros y m z A B; congruence|repeat split; reflexivity]. Qed.
Lemma trimmed_weaken (K K' : oid -> str -> Prop) s s' : (forall y m, K y m -> K' y m) -> trimmed K s s' -> trimmed K' s s'.
Proof. intros H [A B C D E]. constructor; auto. intros y m. destruct (A y m) as [A1|[A1 A2]]; auto. Qed.
Lemma trimmed_trans K a b c : trimmed K a b -> trimmed K b c -> trimmed K a c.
Proof.
  intros T1 T2. constructor.
  - intros y m. destruct (tm_ent _ _ _ T2 y m) as [E|[E1 E2]]; [|right; auto]. rewrite E. apply (tm_ent _ _ _ T1).
  - intros y m z A B. destruct (entry b y m) as [z'|] eqn:Eb.
    + destruct (tm_ent _ _ _ T1 y m) as [E|[_ E]]; [|congruence]. apply (tm_gone _ _ _ T2 y m z); congruence.
    + apply (tm_empty _ _ _ z T2). apply (tm_gone _ _ _ T1 y m z A Eb).
  - intros x. destruct (tm_kind _ _ _ T1 x) as (A1 & A2 & A3), (tm_kind _ _ _ T2 x) as (B1 & B2 & B3). repeat split; congruence.
  - intros x H. rewrite (tm_data _ _ _ T2); [apply (tm_data _ _ _ T1), H|]. rewrite (proj1 (proj2 (tm_kind _ _ _ T1 x))). exact H.
  - destruct (tm_place _ _ _ T1) as (? & ? & ?), (tm_place _ _ _ T2) as (? & ? & ?). repeat split; congruence.
Qed.
Lemma tm_tree K s s' : trimmed K s s' -> forall names d o, tree_at s' d names = Some o -> tree_at s d names = Some o.
Proof.
  intros T. induction names as [|n names IH]; intros d o H; [exact H|]. cbn [tree_at] in *.
  destruct (tm_ent _ _ _ T d n) as [E|[_ E]]; rewrite E in H; [|discriminate]. destruct (entry s d n); [apply IH, H|discriminate].
Qed.
Lemma tm_reach K s s' a b : trimmed K s s' -> reach s' a b -> reach s a b.
Proof. intros T (names & H). exists names. apply (tm_tree K s s' T), H. Qed.
(** if a directory is empty, or was taken away, everything that was below it is empty *)
Lemma tm_below K s s' : trimmed K s s' -> forall names x y, ents s' x = [] -> tree_at s x names = Some y -> ents s' y = [].
Proof.
  intros T. induction names as [|n names IH]; intros x y E H; cbn [tree_at] in H; [congruence|].
  destruct (entry s x n) as [z|] eqn:Ez; [|discriminate]. apply (IH z y); [|exact H]. apply (tm_gone _ _ _ T x n z Ez). unfold entry. rewrite E. reflexivity.
Qed.
Lemma tm_null K s s' names : trimmed K s s' -> is_null s' names <-> is_null s names.
Proof. intros T. unfold is_null, devnull_name. rewrite (proj2 (proj2 (tm_kind _ _ _ T devnull_oid))). unfold sepc. rewrite (tm_cfg _ _ _ T). reflexivity. Qed.
Lemma tm_null_free K s s' : trimmed K s s' -> null_free s -> null_free s'.
Proof.
  intros T H names Hn. apply (tm_null _ _ _ _ T) in Hn. specialize (H names Hn). destruct (at_names s' names) as [o|] eqn:E; [|reflexivity].
  apply (tm_tree K s s' T) in E. unfold at_names in H. congruence.
Qed.
Lemma tm_honest K s s' : trimmed K s s' -> honest_dirs s -> honest_dirs s'.
Proof. intros T H x. destruct (tm_kind _ _ _ T x) as (A & B & _). unfold is_dirm. rewrite A, B. apply H. Qed.
Lemma tm_heap K s s' : f_heap s' = f_heap s -> same_place s s' -> trimmed K s s'.
Proof.
  intros H Hc. assert (E : forall x, ob s' x = ob s x) by (intros x; unfold ob; rewrite H; reflexivity).
  assert (E2 : forall y, ents s' y = ents s y) by (intros y; unfold ents; rewrite E; reflexivity).
  assert (E3 := entry_ents _ _ E2). constructor; auto.
  - intros y m z A B. rewrite E3 in B. congruence.
  - intros x. unfold is_dirobj. rewrite E. auto.
  - intros x _. rewrite E. reflexivity.
Qed.
Lemma tm_less (K : oid -> str -> Prop) s s' d n x : Ginv s -> one_less s s' d n x -> K d n -> ents s x = [] -> trimmed K s s'.
Proof.
  intros HG OL HK Hx. destruct (one_less_entry s s' d n x HG OL) as [E1 E2].
  assert (E : forall y m, entry s' y m = entry s y m \/ (K y m /\ entry s' y m = None)).
  { intros y m. destruct (Nat.eq_dec y d) as [->|Hy]; [destruct (str_eqb m n) eqn:Em|].
    - apply str_eqb_eq in Em. subst m. right. auto.
    - left. apply E2. intros [_ ->]. rewrite str_eqb_refl in Em. discriminate.
    - left. apply E2. intros [-> _]. congruence. }
  constructor; [exact E| | | |].
  - intros y m z A B. assert (z = x) as ->.
    { destruct (Nat.eq_dec y d) as [->|Hy]; [destruct (str_eqb m n) eqn:Em|].
      - apply str_eqb_eq in Em. subst m. pose proof (ol_was _ _ _ _ _ OL). congruence.
      - rewrite E2 in B; [congruence|]. intros [_ ->]. rewrite str_eqb_refl in Em. discriminate.
      - rewrite E2 in B; [congruence|]. intros [-> _]. congruence. }
    apply no_entry. intros k. destruct (E x k) as [Q|[_ Q]]; [|exact Q]. rewrite Q. unfold entry. rewrite Hx. reflexivity.
  - apply (one_less_kind s s' d n x HG OL).
  - intros y Hy. destruct (Nat.eq_dec y d) as [->|Hd].
    + exfalso. pose proof (ol_was _ _ _ _ _ OL) as W. unfold entry, ents in W. unfold is_dirobj in Hy. destruct (o_body (ob s d)); discriminate.
    + destruct (Nat.eq_dec y x) as [->|Hyx]; [rewrite (ol_obj _ _ _ _ _ OL); reflexivity|rewrite (ol_other _ _ _ _ _ OL) by assumption; reflexivity].
  - rewrite (ol_rest _ _ _ _ _ OL). repeat split; reflexivity.
Qed.

Lemma fds_refl s : fds_kept s s.
Proof. split; auto. Qed.
Lemma fds_trans a b c : fds_kept a b -> fds_kept b c -> fds_kept a c.
Proof.
  intros [A1 A2] [B1 B2]. split; [|auto]. intros fd l H. destruct (A1 fd l H) as [C1 C2]. destruct (B1 fd l C1) as [D1 D2].
  split; [exact D1|]. intros w Hw. rewrite D2, C2 by exact Hw. reflexivity.
Qed.
Lemma fds_hst s s' : hst s s' -> fds_kept s s'.
Proof.
  intros H. split.
  - intros fd l E. rewrite (slot_hst s s' H). split; [exact E|]. intros w _. apply (proj2 (proj2 (proj2 H))).
  - intros fd. apply (used_hst s s' H).
Qed.

Section Rm.
Variable c : cfg.
Hypothesis Hl : linux_like c.

(** what holds of every state of a run *)
Record J (s : fs) : Prop := { j_r : reachable c s; j_nf : null_free s; j_h : honest_dirs s; j_f : Finv s }.
Lemma J_next K s s' : J s -> trimmed K s s' -> reachable c s' -> Finv s' -> J s'.
Proof. intros [A B C D] T R F. constructor; [exact R|apply (tm_null_free _ _ _ T B)|apply (tm_honest _ _ _ T C)|exact F]. Qed.
Lemma J_G s : J s -> Ginv s.
Proof. intros H. apply (reachable_Ginv c s Hl), j_r, H. Qed.
Lemma reach_step_op s o : reachable c s -> reachable c (snd (step o s)).
Proof. intros (t & um & u & g & now & ops & ->). exists t, um, u, g, now, (ops ++ [o]). symmetry. apply run_snoc. Qed.

(** [fd] is a descriptor of the directory [d], which is at [ds] *)
Definition holds (s : fs) (fd : Z) (ds : list str) (d : oid) : Prop :=
  (exists w, slot s fd = Some (Some [w]) /\ w_kind (wr s w) = WDirW /\ w_obj (wr s w) = d) /\
  at_names s ds = Some d /\ is_dirobj s d = true /\ ds <> [] /\ (forall n r, ds = n :: r -> is_drive_name n = false).
Lemma slot_get s fd w l : slot s fd = Some (Some (w :: l)) -> get_open_file s fd = Ok w.
Proof.
  intros H. destruct (slot_range s fd _ H) as [A B]. unfold get_open_file. rewrite (proj2 (Z.leb_gt _ _)) by lia.
  rewrite (slot_index s fd _ H). reflexivity.
Qed.
Lemma holds_open s fd ds d : holds s fd ds d -> open_dir s fd ds d.
Proof.
  intros ((w & A & B & C) & D & E & _ & F). split; [|auto]. exists w. split; [apply (slot_get s fd w [] A)|auto].
Qed.
Lemma holds_kept s s' fd ds d : J s -> holds s fd ds d -> trimmed (fun y _ => reach s d y) s s' -> fds_kept s s' -> holds s' fd ds d.
Proof.
  intros HJ ((w & A & B & C) & D & E & F & G) T [K _]. pose proof (J_G s HJ) as HG. destruct (K fd [w] A) as [K1 K2]. specialize (K2 w (or_introl eq_refl)).
  split. { exists w. split; [exact K1|]. split; [rewrite (stat_kind _ _ K2); exact B|rewrite <- C; apply stat_obj', K2]. }
  split; [|split; [rewrite (proj1 (proj2 (tm_kind _ _ _ T d))); exact E|auto]].
  assert (Q : forall post pre a, ds = pre ++ post -> at_names s pre = Some a -> at_names s' pre = Some a -> at_names s' ds = Some d).
  { induction post as [|n post IH]; intros pre a Eq Ha Ha'.
    - rewrite app_nil_r in Eq. subst pre. congruence.
    - assert (Hn : exists z, entry s a n = Some z).
      { rewrite Eq in D. unfold at_names in D, Ha. rewrite tree_at_app, Ha in D. cbn [tree_at] in D. destruct (entry s a n); [eauto|discriminate]. }
      destruct Hn as [z Hz]. assert (En : entry s' a n = Some z).
      { destruct (tm_ent _ _ _ T a n) as [Q|[Q _]]; [congruence|]. exfalso. destruct Q as (b & Hb).
        assert (X : at_names s (ds ++ b) = Some a) by (unfold at_names in *; rewrite tree_at_app, D; exact Hb).
        assert (Hd : is_dirobj s a = true) by (unfold entry, ents in Hz; unfold is_dirobj; destruct (o_body (ob s a)); [reflexivity|discriminate]).
        pose proof (dir_one_path s HG _ _ a Hd X Ha) as Y. rewrite Eq in Y. apply (f_equal (@length str)) in Y. rewrite !app_length in Y. cbn [length] in Y. lia. }
      apply (IH (pre ++ [n]) z); [rewrite <- app_assoc; exact Eq|rewrite (at_names_snoc s pre n a Ha); exact Hz|rewrite (at_names_snoc s' pre n a Ha'); exact En]. }
  apply (Q ds [] root_oid); reflexivity.
Qed.

(** ** The calls *)
Lemma file_ents s x : is_dirobj s x = false -> ents s x = [].
Proof. unfold is_dirobj, ents. destruct (o_body (ob s x)); [discriminate|reflexivity]. Qed.
Definition took_away (s : fs) (d : oid) (n : str) (r : res unit) (s' : fs) : Prop :=
  J s' /\ trimmed (fun y m => y = d /\ m = n) s s' /\ fds_kept s s' /\ (r = Ok tt -> entry s' d n = None).
Definition spot (s : fs) (q : str) (ds : list str) (n : str) (d : oid) : Prop :=
  names_of s q (ds ++ [n]) /\ at_names s ds = Some d /\ is_dirobj s d = true /\ ~ is_null s (ds ++ [n]) /\
  (forall m r, ds = m :: r -> is_drive_name m = false).
Lemma spot_resolve s q ds n d pre n' d' : J s -> spot s q ds n d -> names_of s q (pre ++ [n']) ->
  resolve s (abs_path (sepc s) pre) false = Ok d' -> n' = n /\ d' = d.
Proof.
  intros HJ (A & B & C & D & E) N R. pose proof (J_G s HJ) as HG. unfold names_of in *. rewrite A in N. apply (f_equal (@rev _)) in N.
  rewrite !rev_involutive in N. apply app_inj_tail in N. destruct N as [<- <-].
  destruct (dir_path_s s HG ds d B C E) as (_ & _ & K). rewrite K in R; [injection R as <-; auto|apply (j_h s HJ)|].
  intros Q. pose proof (j_nf s HJ ds Q). unfold at_names in *. congruence.
Qed.
Lemma aout_run m s r s' : unit_of (aout m) s = (r, s') -> s' = snd (m s) /\ ((r = Ok tt /\ exists o, m s = (Ok o, s')) \/ exists e e', r = Err e /\ m s = (Err e', s')).
Proof.
  unfold unit_of, aout, bind, ret. destruct (m s) as [[o|e] t]; intros [= <- <-]; cbn; (split; [reflexivity|]); [left|right]; eauto.
Qed.
Lemma outm_err (m : M unit) s e s' : outm (fun _ => RUnit) m s = (Err e, s') -> m s = (Err e, s').
Proof. unfold outm, bind, ret. destruct (m s) as [[[]|e1] t]; [discriminate|]. intros [= <- <-]. reflexivity. Qed.
Lemma run_remove s q ds n d r s' : J s -> spot s q ds n d -> unit_of (aout (step (Remove q))) s = (r, s') -> took_away s d n r s'.
Proof.
  intros HJ HS E. pose proof (J_G s HJ) as HG. pose proof (hs_step (Remove q) eq_refl s) as HT. pose proof (reach_step_op s (Remove q) (j_r s HJ)) as HR.
  destruct (aout_run _ _ _ _ E) as (Es & K). rewrite <- Es in HT, HR.
  assert (Hp : not_null_path s q) by (apply (not_null_names s q (ds ++ [n])); apply HS).
  assert (Q : trimmed (fun y m => y = d /\ m = n) s s' /\ (r = Ok tt -> entry s' d n = None)).
  { destruct K as [(-> & o & K)|(e & e' & -> & K)]; cbn [step] in K.
    - apply outm_unit in K. destruct (C20_remove c s Hl (j_r s HJ) (j_nf s HJ) (j_h s HJ) q Hp _ _ K) as [(_ & e0 & X)|(_ & pre & n' & d' & x & K1 & K2 & K3 & K4 & K5 & _)]; [discriminate|].
      destruct (spot_resolve s q ds n d pre n' d' HJ HS K1 K2) as [-> ->]. split; [|auto].
      apply (tm_less _ s s' d n x HG K4); [auto|apply file_ents, K3].
    - apply outm_err in K. destruct (C20_remove c s Hl (j_r s HJ) (j_nf s HJ) (j_h s HJ) q Hp _ _ K) as [(X & _)|(X & _)]; [|discriminate].
      split; [rewrite X; apply trimmed_refl|discriminate]. }
  destruct Q as [Q1 Q2]. split; [|split; [exact Q1|split; [apply fds_hst, HT|exact Q2]]].
  apply (J_next _ s s' HJ Q1 HR). apply (Finv_hst _ _ HT), (j_f s HJ).
Qed.
Lemma run_rmdir s q ds n d r s' : J s -> spot s q ds n d -> unit_of (aout (step (Rmdir q))) s = (r, s') -> took_away s d n r s'.
Proof.
  intros HJ HS E. pose proof (J_G s HJ) as HG. pose proof (hs_step (Rmdir q) eq_refl s) as HT. pose proof (reach_step_op s (Rmdir q) (j_r s HJ)) as HR.
  destruct (aout_run _ _ _ _ E) as (Es & K). rewrite <- Es in HT, HR.
  assert (Hp : not_null_path s q) by (apply (not_null_names s q (ds ++ [n])); apply HS).
  assert (Q : trimmed (fun y m => y = d /\ m = n) s s' /\ (r = Ok tt -> entry s' d n = None)).
  { destruct K as [(-> & o & K)|(e & e' & -> & K)]; cbn [step] in K.
    - apply outm_unit in K. destruct (C21_rmdir c s Hl (j_r s HJ) (j_nf s HJ) q Hp _ _ K) as [(_ & e0 & X)|(_ & pre & n' & d' & x & K1 & K2 & K3 & K4 & K5 & _)]; [discriminate|].
      destruct (spot_resolve s q ds n d pre n' d' HJ HS K1 K2) as [-> ->]. split; [|auto].
      apply (tm_less _ s s' d n x HG K4); auto.
    - apply outm_err in K. destruct (C21_rmdir c s Hl (j_r s HJ) (j_nf s HJ) q Hp _ _ K) as [(X & _)|(X & _)]; [|discriminate].
      split; [rewrite X; apply trimmed_refl|discriminate]. }
  destruct Q as [Q1 Q2]. split; [|split; [exact Q1|split; [apply fds_hst, HT|exact Q2]]].
  apply (J_next _ s s' HJ Q1 HR). apply (Finv_hst _ _ HT), (j_f s HJ).
Qed.
(** a name in the directory of a descriptor *)
Lemma at_name s topfd ds d n : J s -> holds s topfd ds d -> ordinary (sepc s) n -> ~ is_null s (ds ++ [n]) ->
  spot s (below s ds n) ds n d /\ forall f, f <> FctLstat -> f <> FctRemove -> path_with_dir_fd s f (Some topfd) (PStr n) = Ok (PStr (below s ds n)).
Proof.
  intros HJ HH Hn Hnn. pose proof (J_G s HJ) as HG. pose proof HH as (_ & Ha & Hd & Hne & Hdr). pose proof (holds_open s topfd ds d HH) as HO.
  assert (Hnull : ~ is_null s ds) by (intros K; pose proof (j_nf s HJ ds K); unfold at_names in *; congruence).
  destruct (C80_name (f_cfg s) s ds d n (gi_lin s HG) Ha Hd Hnull Hdr eq_refl Hn) as [_ Hab].
  assert (Hf : names_from s ds n (ds ++ [n])).
  { unfold names_from. rewrite rev_app_distr. cbn [rev app]. unfold walk_pos.
    destruct Hn as (A & B & C & D). destruct n as [|x n]; [congruence|].
    cbn [is_abs] in *. rewrite Hab. 
    rewrite (split_on_word (sepc s) (x :: n) D). cbn [fold_left]. apply (step_ordinary (f_cfg s)). exact (conj A (conj B (conj C D))). }
  split.
  - destruct (C80_path_partial c s topfd ds d n FctUnlink Hl (j_r s HJ) HO Hab ltac:(discriminate) ltac:(discriminate)) as (_ & _ & P3).
    split; [apply P3, Hf|auto].
  - intros f F1 F2. apply (C80_path_partial c s topfd ds d n f Hl (j_r s HJ) HO Hab F1 F2).
Qed.
Lemma at_call_eq s topfd n q (k : str -> op) f : path_with_dir_fd s f (Some topfd) (PStr n) = Ok (PStr q) ->
  bind (str_at f (Some topfd) n) (fun q => aout (step (k q))) s = aout (step (k q)) s.
Proof. intros H. rewrite (PropDirFd.bind_ok _ _ _ _ _ (str_at_eq s f (Some topfd) n q H)). reflexivity. Qed.
Lemma unit_of_eq m m' s : m s = m' s -> unit_of m s = unit_of m' s.
Proof. intros H. unfold unit_of, bind. rewrite H. reflexivity. Qed.
Lemma at_unlink s topfd ds d n r s' : J s -> holds s topfd ds d -> ordinary (sepc s) n -> ~ is_null s (ds ++ [n]) ->
  unit_of (call_at (Some topfd) None (AtUnlink n)) s = (r, s') -> took_away s d n r s'.
Proof.
  intros HJ HH Hn Hnn E. destruct (at_name s topfd ds d n HJ HH Hn Hnn) as [HS HP].
  apply (run_remove s _ ds n d r s' HJ HS). rewrite <- E. symmetry. apply unit_of_eq. cbn [call_at].
  apply (at_call_eq s topfd n _ Remove FctUnlink), HP; discriminate.
Qed.
Lemma at_rmdir s topfd ds d n r s' : J s -> holds s topfd ds d -> ordinary (sepc s) n -> ~ is_null s (ds ++ [n]) ->
  unit_of (call_at (Some topfd) None (AtRmdir n)) s = (r, s') -> took_away s d n r s'.
Proof.
  intros HJ HH Hn Hnn E. destruct (at_name s topfd ds d n HJ HH Hn Hnn) as [HS HP].
  apply (run_rmdir s _ ds n d r s' HJ HS). rewrite <- E. symmetry. apply unit_of_eq. cbn [call_at].
  apply (at_call_eq s topfd n _ Rmdir FctRmdir), HP; discriminate.
Qed.
(** [guarded]: the same with the error perhaps forgotten *)
Lemma guarded_run ign m s r s' : guarded ign m s = (r, s') -> exists r0, m s = (r0, s') /\ (r = r0 \/ ign = true /\ r = Ok tt).
Proof.
  unfold guarded, catch, on_error, ret, raise. destruct (m s) as [[[]|e] t]; [intros [= <- <-]; eauto|].
  destruct e; try destruct ign; intros [= <- <-]; eexists; (split; [reflexivity|]); auto.
Qed.

(** ** Opening and closing *)
Lemma opened_fd_eq m m' s : m s = m' s -> opened_fd m s = opened_fd m' s.
Proof. intros H. unfold opened_fd, bind. rewrite H. reflexivity. Qed.
Definition got_dir (s s1 : fs) (x : oid) (fd : Z) : Prop :=
  exists w, opened s s1 w fd /\ w_kind (wr s1 w) = WDirW /\ w_obj (wr s1 w) = x /\ f_heap s1 = f_heap s /\ same_place s s1.
Lemma open_call_dir s q x r s1 : J s -> exists_ s q false = Ok true -> (forall o, resolve s q true = Ok o -> o = x) -> is_dirobj s x = true ->
  opened_fd (aout (step (OsOpen q rm_flags None []))) s = (r, s1) -> (s1 = s /\ (exists e, r = Err e) /\ exists e, resolve s q true = Err e) \/ exists fd, r = Ok fd /\ got_dir s s1 x fd.
Proof.
  intros HJ He Hr Hx E. pose proof (gi_lin s (J_G s HJ)) as Hlin. pose proof (ll_win _ Hlin) as Hw.
  unfold opened_fd, aout, bind in E. cbn [step] in E. unfold outm, os_open, bind, gets, lift, ret, raise, rm_flags in E. cbv beta iota zeta in E.
  change (has_bit 2048 O_TMPFILE) with false in E. change (has_bit 2048 O_CREAT) with false in E. change (has_bit 2048 O_EXCL) with false in E.
  change (has_bit 2048 (N.lor O_RDWR O_WRONLY)) with false in E.
  cbn [negb andb orb om_must_not_exist om_must_exist om_write om_read] in E. rewrite Hw in E. cbv beta iota in E. rewrite He in E. cbv beta iota in E.
  destruct (resolve s q true) as [o|e] eqn:Er; cbv beta iota in E; [|injection E as <- <-; left; split; [reflexivity|]; split; [eauto|exists e; reflexivity]].
  specialize (Hr o eq_refl). subst o. rewrite Hx in E. cbn [negb andb orb] in E.
  match type of E with context [add_wrap ?w s] => remember w as W eqn:EW end.
  destruct (add_wrap_opened W s (j_f s HJ)) as (fd & O1 & O2 & O3).
  assert (Hh : f_heap (snd (add_wrap W s)) = f_heap s /\ same_place s (snd (add_wrap W s))).
  { unfold add_wrap, bind, alloc_wrap, add_open_file, wmod, modify, ret, gets. cbv beta iota. destruct (f_free _); repeat split; reflexivity. }
  destruct (add_wrap W s) as [rw t] eqn:Ea. cbn [fst snd] in O1, O2, O3, Hh. subst rw. cbv beta iota in E.
  right. exists fd. unfold wget, gets in E. cbv beta iota in E. rewrite O3 in E. cbn [ww_fd w_fd] in E. injection E as <- <-. split; [reflexivity|].
  exists (f_wnext s). rewrite O3, EW. cbn [ww_fd w_kind w_obj]. destruct Hh as [H1 H2]. auto.
Qed.
Lemma got_next s s1 q x fd : J s -> got_dir s s1 x fd -> s1 = snd (step (OsOpen q rm_flags None []) s) -> J s1.
Proof.
  intros HJ (w & O & _ & _ & A & B) E. apply (J_next (fun _ _ => True) s s1 HJ); [apply tm_heap; assumption|rewrite E; apply reach_step_op, (j_r s HJ)|apply (op_inv _ _ _ _ O)].
Qed.
Lemma close_call s fd w : J s -> slot s fd = Some (Some [w]) -> w_kind (wr s w) = WDirW ->
  rm_close fd s = (Ok tt, snd (rm_close fd s)) /\ J (snd (rm_close fd s)) /\ f_heap (snd (rm_close fd s)) = f_heap s /\ same_place s (snd (rm_close fd s)) /\
  closed_to s (snd (rm_close fd s)) fd None.
Proof.
  intros HJ Hs Hk. assert (Ef : w_fd (wr s w) = fd) by (apply (fi_fd s (j_f s HJ) fd [w] w Hs), or_introl, eq_refl).
  assert (E : step (OsClose fd) s = (Ok RUnit, snd (close_open_file fd s))).
  { cbn [step]. unfold outm, os_close, lift, bind. rewrite (slot_get s fd w [] Hs). unfold close_wrapper, wget, gets, bind. cbv beta iota. rewrite Hk, Ef. reflexivity. }
  assert (E2 : rm_close fd s = (Ok tt, snd (close_open_file fd s))) by (unfold rm_close, bind, ret; rewrite E; reflexivity).
  rewrite E2. cbn [snd]. pose proof (close_open_closed s fd [w] (j_f s HJ) Hs) as C.
  split; [reflexivity|]. split; [|split; [reflexivity|split; [repeat split; reflexivity|exact C]]].
  apply (J_next (fun _ _ => True) s _ HJ); [apply tm_heap; [reflexivity|repeat split; reflexivity]| |apply (cl_inv _ _ _ _ C)].
  replace (snd (close_open_file fd s)) with (snd (step (OsClose fd) s)) by (rewrite E; reflexivity). apply reach_step_op, (j_r s HJ).
Qed.

(** ** Scanning *)
Lemma holds_ordinary s fd ds d : J s -> holds s fd ds d -> Forall (ordinary (sepc s)) ds.
Proof. intros HJ (_ & H & _). apply (at_names_ordinary s (J_G s HJ) ds root_oid d), H. Qed.
Lemma holds_false s fd ds d : J s -> holds s fd ds d -> resolve s (abs_path (sepc s) ds) false = Ok d.
Proof.
  intros HJ (_ & A & B & _ & D). apply (dir_path_s s (J_G s HJ) ds d A B D); [apply (j_h s HJ)|].
  intros Q. pose proof (j_nf s HJ ds Q). unfold at_names in *. congruence.
Qed.
Lemma mapm_names s a b : forall l es, mapm (scan_entry s a b) l = Ok es ->
  map de_name es = l /\ Forall (fun e => de_abspath e = joinp s b (de_name e)) es.
Proof.
  induction l as [|n l IH]; intros es H; cbn [mapm] in H; [injection H as <-; split; [reflexivity|constructor]|].
  unfold scan_entry in H at 1. destruct (isdir s (joinp s b n) true); cbn [rbind] in H; [|discriminate].
  destruct (islink s (joinp s b n)); cbn [rbind] in H; [|discriminate].
  destruct (mapm (scan_entry s a b) l) as [ys|] eqn:E; cbn [rbind] in H; [|discriminate]. injection H as <-.
  destruct (IH ys eq_refl) as [A B]. split; [cbn; rewrite A; reflexivity|constructor; [reflexivity|exact B]].
Qed.
Lemma scan_fd s topfd ds d es : J s -> holds s topfd ds d -> scandir s (PFd topfd) = Ok es ->
  map de_name es = map fst (ents s d) /\ Forall (fun e => de_abspath e = joinp s (abs_path (sepc s) ds) (de_name e)) es.
Proof.
  intros HJ HH H. pose proof (J_G s HJ) as HG. pose proof (holds_ordinary s _ _ _ HJ HH) as Ho. pose proof (holds_false s _ _ _ HJ HH) as Hr.
  destruct HH as ((w & A & B & C) & D & E & F & G). destruct (dir_path_s s HG ds d D E G) as (P & _ & _).
  unfold scandir in H. rewrite (ll_win _ (gi_lin s HG)) in H. unfold fd_object in H. rewrite (slot_get s topfd w [] A) in H. cbn [rbind] in H.
  rewrite B, C in H. cbn [rbind] in H. rewrite P in H. cbn [rbind fst snd] in H. rewrite (anp_of s ds HG Ho) in H.
  unfold confirmdir in H. destruct (resolve s (abs_path (sepc s) ds) true) as [d'|] eqn:R; cbn [rbind] in H; [|discriminate].
  apply (resolve_true_false s _ _ (Ginv_good s HG)) in R. rewrite Hr in R. injection R as <-.
  destruct (negb (has_bit (o_mode (ob s d)) S_IFDIR)); cbn [rbind] in H; [discriminate|].
  unfold ents. destruct (o_body (ob s d)) as [l|]; [|discriminate]. apply mapm_names in H. exact H.
Qed.
Lemma stat_dir s topfd ds d e n st : J s -> holds s topfd ds d -> ordinary (sepc s) n -> de_abspath e = joinp s (abs_path (sepc s) ds) n ->
  de_stat s e false = Ok st -> S_ISDIR (ss_mode st) = true ->
  exists x, entry s d n = Some x /\ is_dirobj s x = true /\ resolve s (abs_path (sepc s) ds) true = Ok d.
Proof.
  intros HJ HH Hn Ea H Hs. pose proof (J_G s HJ) as HG. pose proof (holds_false s _ _ _ HJ HH) as Hr.
  unfold de_stat in H. rewrite Ea, (lresolve_child s HG) in H; [|discriminate|exact Hn]. 
  destruct (resolve s (abs_path (sepc s) ds) true) as [d'|] eqn:R; cbn [rbind] in H; [|discriminate].
  pose proof (resolve_true_false s _ _ (Ginv_good s HG) R) as R'. rewrite Hr in R'. injection R' as <-.
  destruct (negb (is_dirobj s d)); cbn [rbind os_err] in H; [discriminate|]. destruct (negb (has_bit (o_mode (ob s d)) PERM_READ)); cbn [rbind os_err] in H; [discriminate|].
  destruct (entry s d n) as [x|] eqn:Ex; cbn [rbind os_err] in H; [|discriminate]. rewrite (ll_win _ (gi_lin s HG)) in H. injection H as <-. cbn [stat_of ss_mode] in Hs.
  exists x. split; [reflexivity|]. split; [|reflexivity]. rewrite <- (j_h s HJ x). exact Hs.
Qed.
Lemma child_exists s ds d n x : J s -> at_names s ds = Some d -> is_dirobj s d = true -> Forall (ordinary (sepc s)) ds ->
  resolve s (abs_path (sepc s) ds) true = Ok d -> ordinary (sepc s) n -> ~ is_null s (ds ++ [n]) ->
  entry s d n = Some x -> is_dirobj s x = true -> exists_ s (abs_path (sepc s) (ds ++ [n])) false = Ok true.
Proof.
  intros HJ Ha Hd Ho R Hn Hnn Ex Hx. pose proof (J_G s HJ) as HG. pose proof (Ginv_good s HG) as Hg.
  assert (Hnames : names_of s (abs_path (sepc s) ds) ds) by (apply (anp_names_of s _ _ Hg); [discriminate|exact Ho|apply anp_of; assumption]).
  destruct (arrives_intro s HG _ d R Hd) as (names & rr & AR). pose proof (names_of_det s _ _ _ (ar_names _ _ _ _ _ AR) Hnames) as ->.
  assert (Hlk : is_link s x = false) by (unfold is_link; apply has_ifdir_not_link, (gi_dirbit s HG x Hx)).
  destruct (path_child s HG _ ds rr d n x AR Hn Ex Hlk Hnn) as (_ & k & Lk & Rk).
  assert (Hord : Forall (ordinary (sepc s)) (ds ++ [n])) by (apply Forall_app; split; [exact Ho|constructor; [exact Hn|constructor]]).
  rewrite <- (exists_top_eq s Hg _ Hord). apply (leads_exists s HG _ Hord). right. exists k, (rr ++ [n]), x. split; [exact Lk|]. split; [exact Rk|].
  rewrite (at_names_snoc s rr n d (ar_at _ _ _ _ _ AR)). exact Ex.
Qed.
Lemma at_open s topfd ds d n x r s1 : J s -> holds s topfd ds d -> ordinary (sepc s) n -> ~ is_null s (ds ++ [n]) ->
  entry s d n = Some x -> is_dirobj s x = true -> resolve s (abs_path (sepc s) ds) true = Ok d ->
  opened_fd (call_at (Some topfd) None (AtOpen n rm_flags None [])) s = (r, s1) ->
  (s1 = s /\ (exists e, r = Err e) /\ exists e, resolve s (abs_path (sepc s) (ds ++ [n])) true = Err e) \/ exists fd, r = Ok fd /\ got_dir s s1 x fd /\ J s1.
Proof.
  intros HJ HH Hn Hnn Ex Hx R E. pose proof (J_G s HJ) as HG. pose proof (holds_ordinary s _ _ _ HJ HH) as Ho.
  destruct (at_name s topfd ds d n HJ HH Hn Hnn) as [HS HP]. destruct HH as (_ & Ha & Hd & Hne & Hdr).
  assert (Eq : below s ds n = abs_path (sepc s) (ds ++ [n])) by (rewrite abs_path_snoc by exact Hne; unfold below; destruct ds; [congruence|reflexivity]).
  assert (Ec : opened_fd (call_at (Some topfd) None (AtOpen n rm_flags None [])) s = opened_fd (aout (step (OsOpen (below s ds n) rm_flags None []))) s).
  { apply opened_fd_eq. cbn [call_at]. apply (at_call_eq s topfd n _ (fun q => OsOpen q rm_flags None []) FctOpen), HP; discriminate. }
  rewrite Ec, Eq in E.
  assert (Hax : at_names s (ds ++ [n]) = Some x) by (rewrite (at_names_snoc s ds n d Ha); exact Ex).
  assert (Hdr' : forall m r, ds ++ [n] = m :: r -> is_drive_name m = false).
  { intros m r0 Q. destruct ds as [|k ds]; [congruence|]. injection Q as <- _. apply (Hdr k ds eq_refl). }
  pose proof (proj2 (proj2 (dir_path_s s HG (ds ++ [n]) x Hax Hx Hdr')) (j_h s HJ) Hnn) as Rf.
  destruct (open_call_dir s _ x r s1 HJ (child_exists s ds d n x HJ Ha Hd Ho R Hn Hnn Ex Hx)) as [K|(fd & K1 & K2)]; [|exact Hx|exact E|left; exact K|].
  - intros o Q. apply (resolve_true_false s _ _ (Ginv_good s HG)) in Q. congruence.
  - right. exists fd. split; [exact K1|]. split; [exact K2|]. apply (got_next s s1 (abs_path (sepc s) (ds ++ [n])) x fd HJ K2).
    subst r. unfold opened_fd, bind, aout, bind in E. destruct (step (OsOpen (abs_path (sepc s) (ds ++ [n])) rm_flags None []) s) as [[o|e0] t]; unfold ret, raise in E; cbn [snd] in *;
      [destruct o; unfold ret, raise in E; congruence|discriminate].
Qed.

(** ** One directory *)
Lemma guarded_ok ign m s s' : m s = (Ok tt, s') -> guarded ign m s = (Ok tt, s').
Proof. intros H. unfold guarded, catch. rewrite H. reflexivity. Qed.
(** what the recursive call does with the directory [x] *)
Definition emptied (ign : bool) (x : oid) (s : fs) (r : res unit) (s' : fs) : Prop :=
  J s' /\ trimmed (fun y _ => reach s x y) s s' /\ fds_kept s s' /\ (r = Ok tt -> ign = false -> ents s' x = []).
Lemma fds_closed s s1 s2 s3 x fd : got_dir s s1 x fd -> Finv s -> fds_kept s1 s2 -> closed_to s2 s3 fd None -> fds_kept s s3.
Proof.
  intros (w & O & _) HF [K1 K2] C. assert (Hfree : forall j, fd_used s j -> j <> fd) by (intros j Hj ->; apply (op_free _ _ _ _ O), Hj). split.
  - intros j l H. assert (Hj : j <> fd) by (apply Hfree; exists l; exact H).
    assert (H1 : slot s1 j = Some (Some l)) by (rewrite (op_others _ _ _ _ O j Hj); exact H). destruct (K1 j l H1) as [H2 W2].
    split; [rewrite (cl_others _ _ _ _ C j Hj); exact H2|]. intros v Hv. rewrite (cl_wraps _ _ _ _ C v), (W2 v Hv).
    apply (op_wraps _ _ _ _ O). intros ->. destruct (fi_fd s HF j l w H Hv) as [L _]. rewrite (op_new _ _ _ _ O) in L. lia.
  - intros j (l & H). destruct (Z.eq_dec j fd) as [->|Hj]; [rewrite (cl_slot _ _ _ _ C) in H; discriminate|].
    rewrite (cl_others _ _ _ _ C j Hj) in H. destruct (K2 j (ex_intro _ l H)) as (l1 & H1). rewrite (op_others _ _ _ _ O j Hj) in H1. exists l1. exact H1.
Qed.
Lemma trimmed_via (K : oid -> str -> Prop) s s1 s2 s3 x : f_heap s1 = f_heap s -> same_place s s1 -> trimmed (fun y _ => reach s1 x y) s1 s2 ->
  f_heap s3 = f_heap s2 -> same_place s2 s3 -> (forall y m, reach s x y -> K y m) -> trimmed K s s3.
Proof.
  intros A1 A2 T B1 B2 HK. apply (trimmed_trans K s s1 s3); [apply tm_heap; assumption|]. apply (trimmed_trans K s1 s2 s3); [|apply tm_heap; assumption].
  apply (trimmed_weaken _ _ _ _ (fun y m H => HK y m (tm_reach (fun _ _ => True) s s1 x y (tm_heap _ _ _ A1 A2) H)) T).
Qed.
Lemma opened_run ign st fd sub rm s s1 x e n r s' :
  J s -> got_dir s s1 x fd -> J s1 ->
  (forall r1 s2, sub s1 = (r1, s2) -> emptied ign x s1 r1 s2) ->
  (forall s3 r3 s4, J s3 -> trimmed (fun y _ => reach s x y) s s3 -> fds_kept s s3 -> rm s3 = (r3, s4) -> took_away s3 e n r3 s4) ->
  rm_opened ign st fd sub rm s1 = (r, s') ->
  J s' /\ trimmed (fun y m => reach s x y \/ (y = e /\ m = n)) s s' /\ fds_kept s s' /\ (r = Ok tt -> ign = false -> entry s' e n = None).
Proof.
  intros HJ G HJ1 Hsub Hrm E. pose proof G as (w & O & Gk & Go & Gh & Gc).
  (* closing after [s2] *)
  assert (Hclose : forall s2, J s2 -> fds_kept s1 s2 -> exists s3, guarded ign (rm_close fd) s2 = (Ok tt, s3) /\ J s3 /\ f_heap s3 = f_heap s2 /\ same_place s2 s3 /\ fds_kept s s3).
  { intros s2 HJ2 K. destruct K as [K1 K2]. destruct (K1 fd [w] (op_slot _ _ _ _ O)) as [Hs Hw]. specialize (Hw w (or_introl eq_refl)).
    assert (Hk : w_kind (wr s2 w) = WDirW) by (rewrite (stat_kind _ _ Hw); exact Gk).
    destruct (close_call s2 fd w HJ2 Hs Hk) as (C1 & C2 & C3 & C4 & C5). exists (snd (rm_close fd s2)).
    split; [apply guarded_ok, C1|]. split; [exact C2|]. split; [exact C3|]. split; [exact C4|]. apply (fds_closed s s1 s2 _ x fd G (j_f s HJ) (conj K1 K2) C5). }
  assert (Hearly : forall m r1 s2, m s1 = (r1, s2) -> emptied ign x s1 (Err AssertErr) s2 -> finally_ m (guarded ign (rm_close fd)) s1 = (r, s') -> (r1 = Ok tt -> ign = true) ->
    J s' /\ trimmed (fun y m => reach s x y \/ (y = e /\ m = n)) s s' /\ fds_kept s s' /\ (r = Ok tt -> ign = false -> entry s' e n = None)).
  { intros m r1 s2 Em (A1 & A2 & A3 & _) F Hr. destruct (Hclose s2 A1 A3) as (s3 & C1 & C2 & C3 & C4 & C5). unfold finally_ in F. rewrite Em, C1 in F. injection F as <- <-.
    split; [exact C2|]. split; [apply (trimmed_via _ s s1 s2 s3 x Gh Gc A2 C3 C4); auto|]. split; [exact C5|]. intros Q1 Q2. specialize (Hr Q1). congruence. }
  assert (Hsame : emptied ign x s1 (Err AssertErr) s1) by (split; [exact HJ1|split; [apply trimmed_refl|split; [apply fds_refl|discriminate]]]).
  unfold rm_opened in E. destruct (fstat s1 fd) as [st2|e2].
  - destruct (samestat st st2).
    + destruct (sub s1) as [r1 s2] eqn:Es. pose proof (Hsub r1 s2 eq_refl) as (A1 & A2 & A3 & A4). destruct r1 as [[]|e1].
      * destruct (Hclose s2 A1 A3) as (s3 & C1 & C2 & C3 & C4 & C5). unfold bind in E. rewrite C1 in E.
        assert (T3 : trimmed (fun y _ => reach s x y) s s3) by (apply (trimmed_via _ s s1 s2 s3 x Gh Gc A2 C3 C4); auto).
        destruct (guarded_run ign rm s3 r s' E) as (r0 & E0 & Hr0). destruct (Hrm s3 r0 s' C2 T3 C5 E0) as (B1 & B2 & B3 & B4).
        split; [exact B1|]. split; [|split; [apply (fds_trans s s3 s' C5 B3)|]].
        -- apply (trimmed_trans _ s s3 s'); [apply (trimmed_weaken _ _ _ _ (fun y m H => or_introl H) T3)|apply (trimmed_weaken _ _ _ _ (fun y m H => or_intror H) B2)].
        -- intros Q1 Q2. apply B4. destruct Hr0 as [<-|[Q _]]; [exact Q1|congruence].
      * unfold finally_, raise in E. destruct (Hclose s2 A1 A3) as (s3 & C1 & C2 & C3 & C4 & C5). rewrite C1 in E. injection E as <- <-.
        split; [exact C2|]. split; [apply (trimmed_via _ s s1 s2 s3 x Gh Gc A2 C3 C4); auto|]. split; [exact C5|discriminate].
    + apply (Hearly (on_error ign (OSErr EINVAL)) (if ign then Ok tt else Err (OSErr EINVAL)) s1); [unfold on_error; destruct ign; reflexivity|exact Hsame|exact E|destruct ign; [reflexivity|discriminate]].
  - apply (Hearly (raise e2) (Err e2) s1); [reflexivity|exact Hsame|exact E|discriminate].
Qed.

(** ** The loop *)
Definition here (s : fs) (ds : list str) (e : dirent) : Prop :=
  ordinary (sepc s) (de_name e) /\ ~ is_null s (ds ++ [de_name e]) /\ de_abspath e = joinp s (abs_path (sepc s) ds) (de_name e).
Lemma here_next K s s' ds e : trimmed K s s' -> here s ds e -> here s' ds e.
Proof.
  intros T (A & B & C). unfold here, joinp, sepc in *. rewrite (tm_cfg _ _ _ T). split; [exact A|]. split; [|exact C]. intros Q. apply B. apply (tm_null _ _ _ _ T), Q.
Qed.
Definition recs (ign : bool) (rec : Z -> M unit) : Prop := forall fd s ds x r s', J s -> holds s fd ds x -> rec fd s = (r, s') -> emptied ign x s r s'.
Definition cleared (ign : bool) (d : oid) (s : fs) (n : str) (r : res unit) (s' : fs) : Prop :=
  J s' /\ trimmed (fun y _ => reach s d y) s s' /\ fds_kept s s' /\ (r = Ok tt -> ign = false -> entry s' d n = None) /\ (forall m, m <> n -> entry s' d m = entry s d m).
Lemma took_cleared ign d s n r r0 s' : took_away s d n r0 s' -> (r = r0 \/ ign = true /\ r = Ok tt) -> cleared ign d s n r s'.
Proof.
  intros (A & B & C & D) H. split; [exact A|]. split; [apply (trimmed_weaken _ _ _ _ (fun y m Q => eq_rect_r (fun z => reach s d z) (reach_refl s d) (proj1 Q)) B)|]. split; [exact C|].
  split; [intros Q1 Q2; apply D; destruct H as [<-|[H _]]; [exact Q1|congruence]|].
  intros m Hm. destruct (tm_ent _ _ _ B d m) as [Q|[[_ Q] _]]; [exact Q|congruence].
Qed.
Lemma each_one rec ign topfd ds d e s r s' : recs ign rec -> J s -> holds s topfd ds d -> here s ds e ->
  (if de_is_dir e false then
     match de_stat s e false with
     | Err (OSErr x) => on_error ign (OSErr x) s
     | Err x => (Err x, s)
     | Ok st =>
         if S_ISDIR (ss_mode st) then
           match opened_fd (call_at (Some topfd) None (AtOpen (de_name e) rm_flags None [])) s with
           | (Err (OSErr x), s1) => on_error ign (OSErr x) s1
           | (Err x, s1) => (Err x, s1)
           | (Ok fd, s1) => rm_opened ign st fd (rec fd) (unit_of (call_at (Some topfd) None (AtRmdir (de_name e)))) s1
           end
         else guarded ign (unit_of (call_at (Some topfd) None (AtUnlink (de_name e)))) s
     end
   else guarded ign (unit_of (call_at (Some topfd) None (AtUnlink (de_name e)))) s) = (r, s') ->
  cleared ign d s (de_name e) r s'.
Proof.
  intros Hrec HJ HH (Hn & Hnn & Ha) E. set (n := de_name e) in *.
  assert (Hun : guarded ign (unit_of (call_at (Some topfd) None (AtUnlink n))) s = (r, s') -> cleared ign d s n r s').
  { intros Q. destruct (guarded_run _ _ _ _ _ Q) as (r0 & Q1 & Q2). apply (took_cleared ign d s n r r0 s' (at_unlink s topfd ds d n r0 s' HJ HH Hn Hnn Q1) Q2). }
  assert (Hst : forall x, on_error ign x s = (r, s') -> cleared ign d s n r s').
  { intros x Q. assert (s' = s /\ (r = Ok tt -> ign = true)) as [-> Hr] by (unfold on_error, ret, raise in Q; destruct ign; injection Q as <- <-; split; auto; discriminate).
    split; [exact HJ|]. split; [apply trimmed_refl|]. split; [apply fds_refl|]. split; [|reflexivity]. intros Q1 Q2. specialize (Hr Q1). congruence. }
  assert (Hst2 : forall x, (Err x, s) = (r, s') -> cleared ign d s n r s').
  { intros x [= <- <-]. split; [exact HJ|]. split; [apply trimmed_refl|]. split; [apply fds_refl|]. split; [discriminate|reflexivity]. }
  destruct (de_is_dir e false); [|apply Hun, E]. destruct (de_stat s e false) as [st|x] eqn:Est; [|destruct x; eauto].
  destruct (S_ISDIR (ss_mode st)) eqn:Ed; [|apply Hun, E].
  destruct (stat_dir s topfd ds d e n st HJ HH Hn Ha Est Ed) as (x & Ex & Hx & R).
  destruct (opened_fd (call_at (Some topfd) None (AtOpen n rm_flags None [])) s) as [r0 s1] eqn:Eo.
  destruct (at_open s topfd ds d n x r0 s1 HJ HH Hn Hnn Ex Hx R Eo) as [(-> & (e0 & ->) & _)|(fd & -> & G & HJ1)]; [destruct e0; eauto|].
  assert (Hh1 : holds s1 fd (ds ++ [n]) x).
  { destruct G as (w & O & Gk & Go & Gh & Gc). pose proof HH as (_ & A & B & F & D).
    assert (Hob : forall y, ob s1 y = ob s y) by (intros y; unfold ob; rewrite Gh; reflexivity).
    split; [exists w; split; [apply (op_slot _ _ _ _ O)|auto]|]. split; [|split; [unfold is_dirobj; rewrite Hob; exact Hx|split; [destruct ds; discriminate|]]].
    - assert (Ht : forall names z, tree_at s1 z names = tree_at s z names).
      { induction names as [|k names IH]; intros z; [reflexivity|]. cbn [tree_at]. unfold entry, ents. rewrite Hob. fold (ents s z). fold (entry s z k). destruct (entry s z k); auto. }
      unfold at_names. rewrite Ht. fold (at_names s (ds ++ [n])). rewrite (at_names_snoc s ds n d A). exact Ex.
    - intros m r1 Q. destruct ds as [|k ds]; [congruence|]. injection Q as <- _. apply (D k ds eq_refl). }
  assert (Hin : forall y (m : str), reach s x y -> reach s d y) by (intros y m Q; apply (reach_step s d n x y Ex Q)).
  destruct (opened_run ign st fd (rec fd) (unit_of (call_at (Some topfd) None (AtRmdir n))) s s1 x d n r s' HJ G HJ1) as (A1 & A2 & A3 & A4); [| |exact E|].
  - intros r1 s2 Q. apply (Hrec fd s1 (ds ++ [n]) x r1 s2 HJ1 Hh1 Q).
  - intros s3 r3 s4 HJ3 T3 F3 Q. assert (T3' : trimmed (fun y _ => reach s d y) s s3) by (apply (trimmed_weaken _ _ _ _ Hin T3)).
    apply (at_rmdir s3 topfd ds d n r3 s4 HJ3); [apply (holds_kept s s3 topfd ds d HJ HH T3' F3)| |intros Z; apply Hnn, (tm_null _ _ _ _ T3), Z|exact Q].
    unfold sepc. rewrite (tm_cfg _ _ _ T3). exact Hn.
  - split; [exact A1|]. split; [|split; [exact A3|split; [exact A4|]]].
    + apply (trimmed_weaken (fun y m => reach s x y \/ (y = d /\ m = n)) _ s s'); [|exact A2].
      intros y m [Q|[-> _]]; [apply (Hin y m Q)|apply reach_refl].
    + intros m Hm. destruct (tm_ent _ _ _ A2 d m) as [Q|[[Q|[_ Q]] _]]; [exact Q| |congruence]. exfalso.
      destruct Q as (b & Q). pose proof (gi_acyc s (J_G s HJ) d (n :: b)) as Z. cbn [tree_at] in Z. rewrite Ex in Z. specialize (Z Q). discriminate.
Qed.
Lemma each_run rec ign topfd ds d : recs ign rec -> forall es s r s', J s -> holds s topfd ds d -> Forall (here s ds) es ->
  rm_each rec ign topfd es s = (r, s') ->
  J s' /\ trimmed (fun y _ => reach s d y) s s' /\ fds_kept s s' /\ (r = Ok tt -> ign = false -> forall e, In e es -> entry s' d (de_name e) = None).
Proof.
  intros Hrec. induction es as [|e es IH]; intros s r s' HJ HH HF E.
  - cbn in E. injection E as <- <-. split; [exact HJ|]. split; [apply trimmed_refl|]. split; [apply fds_refl|]. intros _ _ e [].
  - inversion HF as [|? ? He HF']; subst. cbn [rm_each] in E. unfold bind in E.
    match type of E with (let (_, _) := ?b in _) = _ => destruct b as [r1 s1] eqn:E1 end.
    apply (each_one rec ign topfd ds d e s r1 s1 Hrec HJ HH He) in E1. destruct E1 as (A1 & A2 & A3 & A4 & _).
    destruct r1 as [[]|x1]; [|injection E as <- <-; split; [exact A1|]; split; [exact A2|]; split; [exact A3|discriminate]].
    destruct (IH s1 r s' A1 (holds_kept s s1 topfd ds d HJ HH A2 A3) (Forall_impl _ (fun a => here_next _ s s1 ds a A2) HF') E) as (B1 & B2 & B3 & B4).
    split; [exact B1|]. split; [|split; [apply (fds_trans s s1 s' A3 B3)|]].
    + apply (trimmed_trans _ s s1 s' A2). apply (trimmed_weaken _ _ _ _ (fun y m Q => tm_reach _ s s1 d y A2 Q) B2).
    + intros Q1 Q2 e0 [<-|H]; [|apply (B4 Q1 Q2 e0 H)]. specialize (A4 eq_refl Q2). destruct (tm_ent _ _ _ B2 d (de_name e)) as [Z|[_ Z]]; [congruence|exact Z].
Qed.
Lemma fd_run ign : forall fuel, recs ign (rm_fd fuel ign).
Proof.
  induction fuel as [|fuel IH]; intros fd s ds x r s' HJ HH E.
  - cbn in E. injection E as <- <-. split; [exact HJ|]. split; [apply trimmed_refl|]. split; [apply fds_refl|discriminate].
  - cbn [rm_fd] in E. destruct (scandir s (PFd fd)) as [es|x0] eqn:Es.
    + destruct (scan_fd s fd ds x es HJ HH Es) as [N A]. pose proof (J_G s HJ) as HG. pose proof HH as (_ & Ha & Hd & _).
      assert (HF : Forall (here s ds) es).
      { rewrite Forall_forall in A |- *. intros e He. assert (Hin : In (de_name e) (map fst (ents s x))) by (rewrite <- N; apply in_map, He).
        apply in_map_iff in Hin. destruct Hin as ([n o] & E1 & E2). cbn in E1. subst n. destruct (gi_ent s HG x _ o E2) as (_ & _ & Ho).
        split; [exact Ho|]. split; [|apply A, He]. intros Q. pose proof (j_nf s HJ _ Q) as Z. rewrite (at_names_snoc s ds _ x Ha) in Z.
        apply (entry_some s x _ o E2 Z). }
      destruct (each_run _ ign fd ds x IH es s r s' HJ HH HF E) as (B1 & B2 & B3 & B4).
      split; [exact B1|]. split; [exact B2|]. split; [exact B3|]. intros Q1 Q2. apply no_entry. intros m.
      destruct (entry s x m) as [z|] eqn:Ez.
      * assert (Hin : In m (map de_name es)) by (rewrite N; apply in_map_iff; exists (m, z); split; [reflexivity|apply entry_In, Ez]).
        apply in_map_iff in Hin. destruct Hin as (e & <- & He). apply (B4 Q1 Q2 e He).
      * destruct (tm_ent _ _ _ B2 x m) as [Z|[_ Z]]; congruence.
    + assert (s' = s /\ (r = Ok tt -> ign = true)) as [-> Hr].
      { destruct x0; try (injection E as <- <-; split; [reflexivity|discriminate]). unfold on_error, ret, raise in E; destruct ign; injection E as <- <-; split; auto; discriminate. }
      split; [exact HJ|]. split; [apply trimmed_refl|]. split; [apply fds_refl|]. intros Q1 Q2. specialize (Hr Q1). congruence.
Qed.

(** ** The whole call *)
Lemma resolve_names s p names x ck o : J s -> names_of s p names -> at_names s names = Some x -> is_dirobj s x = true ->
  (forall m r, names = m :: r -> is_drive_name m = false) -> resolve s p ck = Ok o -> o = x.
Proof.
  intros HJ Hp Ha Hd Hdr H. pose proof (J_G s HJ) as HG. pose proof (Ginv_good s HG) as Hg.
  assert (Hnn : ~ is_null s names) by (intros Q; pose proof (j_nf s HJ names Q); unfold at_names in *; congruence).
  pose proof (at_names_ordinary s HG names root_oid x Ha) as Ho.
  destruct (dir_path_s s HG names x Ha Hd Hdr) as (_ & Rp & _). unfold resolve_path in Rp. apply (resolve_path_ok s Hg) in Rp.
  destruct Rp as (_ & _ & n1 & r1 & O1 & A1 & S1 & E1). rewrite (anp_of s names HG Ho) in A1. apply (abs_path_inj (f_cfg s) (linux_like_posix _ (gi_lin s HG))) in A1; [|assumption|assumption]. subst n1.
  apply (abs_path_clean_inj _ (gi_lin s HG)) in E1; [|apply Forall_clean, Ho|apply (resolved_clean s Hg names r1 (Forall_clean _ _ Ho) S1)]. subst r1.
  unfold resolve in H. apply (resolve_ok s Hg) in H. destruct H as (rr & E & Hc & K). apply (resolve_path_ok s Hg) in E.
  destruct E as (Hne & _ & n2 & r2 & O2 & A2 & S2 & E2). destruct (names_of_anp s p names Hg Hne Hp) as [O3 A3]. rewrite A3 in A2.
  apply (abs_path_inj (f_cfg s) (linux_like_posix _ (gi_lin s HG))) in A2; [|assumption|assumption]. subst n2.
  apply (abs_path_clean_inj _ (gi_lin s HG)) in E2; [|exact Hc|apply (resolved_clean s Hg names r2 (Forall_clean _ _ Ho) S2)]. subst r2.
  assert (rr = names) as ->.
  { destruct S1 as [[Q _]|(_ & k1 & _ & R1)]; [contradiction|]. destruct S2 as [[Q _]|(_ & k2 & _ & R2)]; [contradiction|]. apply (resolves_det s k2 k1 names rr names Hg R2 R1). }
  destruct K as [[Q _]|(_ & K & _)]; [contradiction|]. congruence.
Qed.
Lemma rmtree_run fuel ign p s r s' pre n e x : J s -> names_of s p (pre ++ [n]) -> at_names s pre = Some e -> entry s e n = Some x -> is_dirobj s x = true ->
  (forall m r, pre ++ [n] = m :: r -> is_drive_name m = false) -> exists_ s p false = Ok true -> rmtree fuel ign p s = (r, s') ->
  J s' /\ trimmed (fun y m => reach s x y \/ (y = e /\ m = n)) s s' /\ fds_kept s s' /\ (r = Ok tt -> ign = false -> entry s' e n = None).
Proof.
  intros HJ Hp Ha Ex Hx Hdr He E. pose proof (J_G s HJ) as HG.
  assert (Hax : at_names s (pre ++ [n]) = Some x) by (rewrite (at_names_snoc s pre n e Ha); exact Ex).
  assert (Hnn : ~ is_null s (pre ++ [n])) by (intros Q; pose proof (j_nf s HJ _ Q); congruence).
  assert (Hde : is_dirobj s e = true) by (unfold entry, ents in Ex; unfold is_dirobj; destruct (o_body (ob s e)); [reflexivity|discriminate]).
  assert (Hdr0 : forall m r0, pre = m :: r0 -> is_drive_name m = false) by (intros m r0 ->; apply (Hdr m (r0 ++ [n]) eq_refl)).
  assert (Hst : forall x0, on_error ign x0 s = (r, s') -> J s' /\ trimmed (fun y m => reach s x y \/ (y = e /\ m = n)) s s' /\ fds_kept s s' /\ (r = Ok tt -> ign = false -> entry s' e n = None)).
  { intros y Q. assert (s' = s /\ (r = Ok tt -> ign = true)) as [-> Hr] by (unfold on_error, ret, raise in Q; destruct ign; injection Q as <- <-; split; auto; discriminate).
    split; [exact HJ|]. split; [apply trimmed_refl|]. split; [apply fds_refl|]. intros Q1 Q2. specialize (Hr Q1). congruence. }
  unfold rmtree in E. destruct (stat s (PStr p) false) as [st|y]; [|apply (Hst y), E].
  assert (Ec : opened_fd (call_at None None (AtOpen p rm_flags None [])) s = opened_fd (aout (step (OsOpen p rm_flags None []))) s) by (apply opened_fd_eq; reflexivity).
  destruct (opened_fd (call_at None None (AtOpen p rm_flags None [])) s) as [r0 s1] eqn:Eo. symmetry in Ec.
  destruct (open_call_dir s p x r0 s1 HJ He) as [(-> & (y & ->) & _)|(fd & -> & G)]; [intros o Q; apply (resolve_names s p _ x true o HJ Hp Hax Hx Hdr Q)|exact Hx|exact Ec|apply (Hst y), E|].
  assert (HJ1 : J s1).
  { apply (got_next s s1 p x fd HJ G). unfold opened_fd, bind, aout, bind in Ec. destruct (step (OsOpen p rm_flags None []) s) as [[o|e0] t]; unfold ret, raise in Ec; cbn [snd] in *;
      [destruct o; unfold ret, raise in Ec; congruence|discriminate]. }
  assert (Hh1 : holds s1 fd (pre ++ [n]) x).
  { destruct G as (w & O & Gk & Go & Gh & Gc). split; [exists w; split; [apply (op_slot _ _ _ _ O)|auto]|].
    split; [|split; [unfold is_dirobj, ob; rewrite Gh; exact Hx|split; [destruct pre; discriminate|exact Hdr]]].
    assert (Ht : forall names z, tree_at s1 z names = tree_at s z names).
    { induction names as [|k names IH]; intros z; [reflexivity|]. cbn [tree_at]. unfold entry, ents, ob. rewrite Gh. fold (ob s z). fold (ents s z). fold (entry s z k). destruct (entry s z k); auto. }
    unfold at_names. rewrite Ht. exact Hax. }
  apply (opened_run ign st fd (rm_fd fuel ign fd) (unit_of (call_at None None (AtRmdir p))) s s1 x e n r s' HJ G HJ1); [| |exact E].
  - intros r1 s2 Q. apply (fd_run ign fuel fd s1 (pre ++ [n]) x r1 s2 HJ1 Hh1 Q).
  - intros s3 r3 s4 HJ3 T3 F3 Q. apply (run_rmdir s3 p pre n e r3 s4 HJ3); [|exact Q].
    assert (Hpre : at_names s3 pre = Some e).
    { assert (Hup : forall post q a, pre = q ++ post -> at_names s q = Some a -> at_names s3 q = Some a -> at_names s3 pre = Some e).
      { induction post as [|m post IH]; intros q a Eq Hqa Hqa'.
        - rewrite app_nil_r in Eq. subst q. congruence.
        - assert (Hz : exists z, entry s a m = Some z).
          { pose proof Ha as D. rewrite Eq in D. unfold at_names in D, Hqa. rewrite tree_at_app, Hqa in D. cbn [tree_at] in D. destruct (entry s a m); [eauto|discriminate]. }
          destruct Hz as [z Hz]. assert (En : entry s3 a m = Some z).
          { destruct (tm_ent _ _ _ T3 a m) as [W|[W _]]; [congruence|]. exfalso. destruct W as (b & Hb).
            assert (X : at_names s ((pre ++ [n]) ++ b) = Some a) by (unfold at_names in *; rewrite tree_at_app, Hax; exact Hb).
            assert (Hd : is_dirobj s a = true) by (unfold entry, ents in Hz; unfold is_dirobj; destruct (o_body (ob s a)); [reflexivity|discriminate]).
            pose proof (dir_one_path s HG _ _ a Hd X Hqa) as Y. rewrite Eq in Y. apply (f_equal (@length str)) in Y. rewrite !app_length in Y. cbn [length] in Y. lia. }
          apply (IH (q ++ [m]) z); [rewrite <- app_assoc; exact Eq|rewrite (at_names_snoc s q m a Hqa); exact Hz|rewrite (at_names_snoc s3 q m a Hqa'); exact En]. }
      apply (Hup pre [] root_oid); reflexivity. }
    split; [|split; [exact Hpre|split; [rewrite (proj1 (proj2 (tm_kind _ _ _ T3 e))); exact Hde|split; [|exact Hdr0]]]].
    + unfold names_of in *. unfold sepc. destruct (tm_place _ _ _ T3) as (-> & -> & _). exact Hp.
    + intros W. apply Hnn, (tm_null _ _ _ _ T3), W.
Qed.
(** a link to a directory *)
Lemma link_run fuel ign p s r s' pre n e l x : J s -> p = abs_path (sepc s) (pre ++ [n]) -> at_names s pre = Some e -> entry s e n = Some l -> is_link s l = true ->
  (forall m r, pre = m :: r -> is_drive_name m = false) -> resolve s p true = Ok x -> is_dirobj s x = true -> rmtree fuel ign p s = (r, s') ->
  trimmed (fun _ _ => False) s s' /\ fds_kept s s' /\ (r = Ok tt -> ign = true).
Proof.
  intros HJ Hp Ha El Hlk Hdr Rx Hx E. pose proof (J_G s HJ) as HG. pose proof (Ginv_good s HG) as Hg.
  assert (Hal : at_names s (pre ++ [n]) = Some l) by (rewrite (at_names_snoc s pre n e Ha); exact El).
  pose proof (at_names_ordinary s HG _ root_oid l Hal) as Ho.
  assert (Hop : Forall (ordinary (sepc s)) pre) by (apply Forall_app in Ho; apply Ho).
  assert (Hde : is_dirobj s e = true) by (unfold entry, ents in El; unfold is_dirobj; destruct (o_body (ob s e)); [reflexivity|discriminate]).
  assert (Hst : forall x0, on_error ign x0 s = (r, s') -> trimmed (fun _ _ => False) s s' /\ fds_kept s s' /\ (r = Ok tt -> ign = true)).
  { intros y Q. unfold on_error, ret, raise in Q. destruct ign; injection Q as <- <-; (split; [apply trimmed_refl|]; split; [apply fds_refl|]); [reflexivity|discriminate]. }
  unfold rmtree in E. destruct (stat s (PStr p) false) as [st|y] eqn:Est; [|apply (Hst y), E].
  assert (Hino : ss_ino st = o_ino (ob s l)).
  { unfold stat, stat_obj in Est. cbn [resolve_arg] in Est. unfold resolve_follow, resolve_any in Est.
    destruct (lresolve_ (exists_top s) s p) as [o|] eqn:Elr; cbn [rbind] in Est; [|discriminate].
    assert (o = l) as ->.
    { rewrite Hp in Elr. apply (lresolve_snoc s Hg _ pre n o Ho) in Elr. destruct Elr as (d & Rd & _ & _ & Ed).
      assert (d = e) as -> by (apply (resolve_names s (abs_path (sepc s) pre) pre e true d HJ); [apply (anp_names_of s _ _ Hg); [discriminate|exact Hop|apply anp_of; assumption]|exact Ha|exact Hde|exact Hdr|exact Rd]).
      congruence. }
    match type of Est with rbind (rbind ?a _) _ = _ => destruct a; cbn [rbind] in Est; [|discriminate] end.
    match type of Est with rbind (rbind ?a _) _ = _ => destruct a; cbn [rbind] in Est; [|discriminate] end.
    injection Est as <-. reflexivity. }
  assert (Hex : exists_ s p false = Ok true).
  { destruct (arrives_intro s HG p x Rx Hx) as (names & rr & AR). destruct (arrives_ordinary s HG _ _ _ _ AR) as [On An].
    rewrite Hp in An. rewrite (anp_of s _ HG Ho) in An. apply (abs_path_inj (f_cfg s) (linux_like_posix _ (gi_lin s HG))) in An; [|assumption|assumption]. subst names.
    rewrite Hp, <- (exists_top_eq s Hg _ Ho). apply (leads_exists s HG _ Ho), (arrives_leads s _ _ _ _ AR). }
  assert (Ec : opened_fd (call_at None None (AtOpen p rm_flags None [])) s = opened_fd (aout (step (OsOpen p rm_flags None []))) s) by (apply opened_fd_eq; reflexivity).
  destruct (opened_fd (call_at None None (AtOpen p rm_flags None [])) s) as [r0 s1] eqn:Eo. symmetry in Ec.
  destruct (open_call_dir s p x r0 s1 HJ Hex) as [(-> & (y & ->) & _)|(fd & -> & G)]; [intros o Q; congruence|exact Hx|exact Ec|apply (Hst y), E|].
  assert (HJ1 : J s1).
  { apply (got_next s s1 p x fd HJ G). unfold opened_fd, bind, aout, bind in Ec. destruct (step (OsOpen p rm_flags None []) s) as [[o|e0] t]; unfold ret, raise in Ec; cbn [snd] in *;
      [destruct o; unfold ret, raise in Ec; congruence|discriminate]. }
  pose proof G as (w & O & Gk & Go & Gh & Gc).
  assert (Hf : fstat s1 fd = Ok (stat_of s1 x)).
  { unfold fstat, fd_object. rewrite (slot_get s1 fd w [] (op_slot _ _ _ _ O)). cbn [rbind]. rewrite Gk, Go. reflexivity. }
  assert (Hs : samestat st (stat_of s1 x) = false).
  { unfold samestat. cbn [stat_of ss_ino]. rewrite Hino. replace (ob s1 x) with (ob s x) by (unfold ob; rewrite Gh; reflexivity).
    pose proof (gi_ino_ent s HG e n l (entry_In s e n l El)) as Hi. destruct (o_ino (ob s l)) as [i|] eqn:Ei; [|congruence].
    destruct (o_ino (ob s x)) as [j|] eqn:Ej; [|reflexivity]. unfold same_opt. destruct (Nat.eqb_spec i j) as [->|_]; [|reflexivity]. exfalso.
    assert (l = x) as ->.
    { apply (gi_ino_inj s HG l x j); [apply (gi_ent s HG e n l (entry_In s e n l El))| |exact Ei|exact Ej].
      destruct (Nat.lt_ge_cases x (f_next s)) as [|L]; [assumption|]. rewrite (gi_new s HG x L) in Hx. discriminate. }
    rewrite (gd_dnl s Hg x Hx) in Hlk. discriminate. }
  unfold rm_opened in E. rewrite Hf, Hs in E. unfold finally_ in E.
  destruct (close_call s1 fd w HJ1 (op_slot _ _ _ _ O) Gk) as (C1 & C2 & C3 & C4 & C5).
  assert (Q : (if ign then Ok tt else Err (OSErr EINVAL)) = r /\ snd (rm_close fd s1) = s').
  { unfold on_error, ret, raise in E. destruct ign; rewrite (guarded_ok _ _ _ _ C1) in E; injection E as <- <-; auto. }
  destruct Q as [<- <-]. split; [apply (trimmed_trans _ s s1 _); apply tm_heap; assumption|]. split; [|destruct ign; [reflexivity|discriminate]].
  apply (fds_closed s s1 s1 _ x fd G (j_f s HJ) (fds_refl s1) C5).
Qed.
End Rm.

(** ** C83 *)
Lemma session_J c s hs : linux_like c -> session natural_fds c s hs -> null_free s -> honest_dirs s -> J c s.
Proof.
  intros Hl Hs Hn Hh. constructor; [apply (session_reachable _ _ _ _ Hs)|exact Hn|exact Hh|]. apply (si_f _ _ (session_Sinv _ _ _ _ (fun o H => H) Hs)).
Qed.
(** Whether or not the call succeeds, wherever it stops: entries were taken away
    only from the directories of the tree (and the name of the tree itself),
    nothing else changed its place, no file was written to, and no descriptor is
    left open *)
Theorem C83_rmtree_safe_partial : forall c s hs fuel ign p pre n e x r s', linux_like c -> session natural_fds c s hs -> null_free s -> honest_dirs s ->
  names_of s p (pre ++ [n]) -> at_names s pre = Some e -> entry s e n = Some x -> is_dirobj s x = true ->
  (forall m r, pre ++ [n] = m :: r -> is_drive_name m = false) -> exists_ s p false = Ok true ->
  rmtree fuel ign p s = (r, s') ->
  trimmed (fun y m => reach s x y \/ (y = e /\ m = n)) s s' /\ fds_kept s s'.
Proof.
  intros c s hs fuel ign p pre n e x r s' Hl Hs Hn Hh A1 A2 A3 A4 A5 A6 E.
  destruct (rmtree_run c Hl fuel ign p s r s' pre n e x (session_J c s hs Hl Hs Hn Hh) A1 A2 A3 A4 A5 A6 E) as (_ & B & C & _). auto.
Qed.
Print Assumptions C83_rmtree_safe_partial.
(** After success nothing is left of the tree *)
Theorem C83_rmtree_gone_partial : forall c s hs fuel p pre n e x s', linux_like c -> session natural_fds c s hs -> null_free s -> honest_dirs s ->
  names_of s p (pre ++ [n]) -> at_names s pre = Some e -> entry s e n = Some x -> is_dirobj s x = true ->
  (forall m r, pre ++ [n] = m :: r -> is_drive_name m = false) -> exists_ s p false = Ok true ->
  rmtree fuel false p s = (Ok tt, s') ->
  entry s' e n = None /\ forall y, reach s x y -> ents s' y = [].
Proof.
  intros c s hs fuel p pre n e x s' Hl Hs Hn Hh A1 A2 A3 A4 A5 A6 E.
  destruct (rmtree_run c Hl fuel false p s _ s' pre n e x (session_J c s hs Hl Hs Hn Hh) A1 A2 A3 A4 A5 A6 E) as (_ & B & _ & D).
  specialize (D eq_refl eq_refl). split; [exact D|]. intros y (names & Hy). apply (tm_below _ s s' B names x y); [|exact Hy]. apply (tm_gone _ _ _ B e n x A3 D).
Qed.
Print Assumptions C83_rmtree_gone_partial.
(** The tree of a link to a directory is not removed *)
Theorem C83_link_refused_partial : forall c s hs fuel ign p pre n e l x r s', linux_like c -> session natural_fds c s hs -> null_free s -> honest_dirs s ->
  p = abs_path (sepc s) (pre ++ [n]) -> at_names s pre = Some e -> entry s e n = Some l -> is_link s l = true ->
  (forall m r, pre = m :: r -> is_drive_name m = false) -> resolve s p true = Ok x -> is_dirobj s x = true ->
  rmtree fuel ign p s = (r, s') ->
  trimmed (fun _ _ => False) s s' /\ fds_kept s s' /\ (r = Ok tt -> ign = true).
Proof.
  intros c s hs fuel ign p pre n e l x r s' Hl Hs Hn Hh A1 A2 A3 A4 A5 A6 A7 E.
  apply (link_run c Hl fuel ign p s r s' pre n e l x (session_J c s hs Hl Hs Hn Hh) A1 A2 A3 A4 A5 A6 A7 E).
Qed.
Print Assumptions C83_link_refused_partial.

(** ** A concrete case: a tree with a link that leads out of it, a file with a
    second name outside, a link to the tree, and a descriptor *)
Definition c83_ops : list op :=
  [Mkdir (L "/d") 511; CreateFile (L "/d/f") 33188 (Some (L "hi")) None false false; Mkdir (L "/d/e") 511; Mkdir (L "/d/e/e2") 511;
   CreateFile (L "/d/e/h") 33188 (Some (L "x")) None false false; Mkdir (L "/o") 511; CreateFile (L "/o/k") 33188 (Some (L "keep")) None false false;
   Symlink (L "/o") (L "/d/e/out"); Link (L "/d/f") (L "/g"); Symlink (L "/d") (L "/ln"); OsOpen (L "/o") 0 None []].
Definition c83_state : fs := run fd_init c83_ops.
Lemma c83_session : session natural_fds posix_cfg c83_state (all_handles fd_init [] c83_ops).
Proof. exists None, 18%N, 0%Z, 0%Z, 0%Z. apply continues_ops. okgo. Qed.
Lemma c83_good : null_free c83_state /\ honest_dirs c83_state.
Proof.
  split.
  - apply null_free_intro; [apply (reachable_Ginv posix_cfg _ posix_cfg_linux (session_reachable _ _ _ _ c83_session))|vm_compute; reflexivity| |vm_compute; reflexivity]. vm_compute. intuition discriminate.
  - intros o. do 12 (destruct o as [|o]; [vm_compute; reflexivity|]). vm_compute. reflexivity.
Qed.
Example C83_case : linux_like posix_cfg /\ session natural_fds posix_cfg c83_state (all_handles fd_init [] c83_ops) /\ null_free c83_state /\ honest_dirs c83_state /\
  names_of c83_state (L "/d") ([] ++ [L "d"]) /\ at_names c83_state [] = Some 0 /\ entry c83_state 0 (L "d") = Some 2 /\ is_dirobj c83_state 2 = true /\
  (forall m r, [] ++ [L "d"] = m :: r -> is_drive_name m = false) /\ exists_ c83_state (L "/d") false = Ok true.
Proof.
  split; [apply posix_cfg_linux|]. split; [apply c83_session|]. split; [apply c83_good|]. split; [apply c83_good|]. split; [vm_compute; reflexivity|].
  split; [vm_compute; reflexivity|]. split; [vm_compute; reflexivity|]. split; [vm_compute; reflexivity|]. split; [intros m r [= <- <-]; reflexivity|vm_compute; reflexivity].
Qed.
Example C83_result : fst (rmtree 5 false (L "/d") c83_state) = Ok tt /\
  (let s' := snd (rmtree 5 false (L "/d") c83_state) in (at_names s' [L "d"], at_names s' [L "o"; L "k"], at_names s' [L "g"], map (slot s') [3; 4]%Z)) =
  (None, Some 8, Some 3, [Some (Some [3]); Some None]).
Proof. split; vm_compute; reflexivity. Qed.
Example C83_link_case : L "/ln" = abs_path (sepc c83_state) ([] ++ [L "ln"]) /\ entry c83_state 0 (L "ln") = Some 10 /\ is_link c83_state 10 = true /\
  resolve c83_state (L "/ln") true = Ok 2 /\ fst (rmtree 5 false (L "/ln") c83_state) = Err (OSErr EINVAL) /\ fst (rmtree 5 true (L "/ln") c83_state) = Ok tt.
Proof. split; [vm_compute; reflexivity|]. split; [vm_compute; reflexivity|]. split; [vm_compute; reflexivity|]. split; [vm_compute; reflexivity|]. split; vm_compute; reflexivity. Qed.
(** rmtree of a file fails, as it should, but has changed the mode of the file *)
Theorem C83_file_refuted : fst (rmtree 5 false (L "/o/k") c83_state) = Err (OSErr ENOTDIR) /\
  o_mode (ob c83_state 8) = 33188%N /\ o_mode (ob (snd (rmtree 5 false (L "/o/k") c83_state)) 8) <> 33188%N.
Proof. split; [vm_compute; reflexivity|]. split; [vm_compute; reflexivity|]. vm_compute. discriminate. Qed.
Print Assumptions C83_file_refuted.
